(** * S_fault: histories of a file. *)
From Verif Require Import GoBase M_grate S_grate M_simple M_xlsx S_which M_fault.

(** a file is made of bytes, and the errors of the operating system are not grate's *)
Definition own_file (f : gofile) : Prop :=
  match f with
  | FileErr e => ~ on_chain ENotInFormat e
  | FileData data re => bytes_ok data /\ zlen data <= 2 ^ 50 /\ match re with Some e => ~ on_chain ENotInFormat e | None => True end
  end.
(** a file that nobody changes and that can be read *)
Definition steady (data : bytes) (z : xzip + gerr) : nat -> view := fun _ => mkView (FileData data None) z.
(** the same, but for one failure while the second opener looks for an archive *)
Definition one_failure (data : bytes) (z : xzip + gerr) (e : gerr) : nat -> view :=
  fun n => mkView (FileData data None) (if Nat.eqb n 1 then inr e else z).
(** a file that is empty when the first opener looks, and has its content from then on *)
Definition written_late (data : bytes) (z : xzip + gerr) : nat -> view :=
  fun n => if Nat.eqb n 0 then mkView (FileData [] None) (inr EUnexpectedEOF) else mkView (FileData data None) z.
(** what the first opener leaves to the second, and the second to the third *)
Definition left_to_xlsx (sp : bytes) (hist : nat -> view) : Prop :=
  exists d, v_file (hist 0%nat) = FileData d None /\ left_by_xls d (d ++ sp).
Definition left_to_text (hist : nat -> view) : Prop :=
  (exists d re, v_file (hist 1%nat) = FileData d re) /\ forall z, v_zip (hist 1%nat) = inl z -> no_package z.

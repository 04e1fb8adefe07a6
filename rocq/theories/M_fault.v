(** * M_fault: grate.Open on a file that is read anew by every opener, while reads may fail and the
    file may change. *)
From Verif Require Import GoBase M_grate M_simple M_xls M_xlsx M_open.

(** What one opening of the file meets: what os.Open and reading to the end give (the bytes read and the
    error that ended the reading), and what archive/zip makes of the file, which reads at the positions it
    needs: an archive, in which single parts may fail to be read, or an error.  Simplification: the parts
    of an archive are those at the time of Open, also for a later Get. *)
Record view := mkView { v_file : gofile; v_zip : xzip + gerr }.

(** Each opener calls os.Open once: xls at cfb/interface.go:12, xlsx at xlsx.go:45, tsv at tsv.go:16,
    csv at csv.go:15.  The world is the number of openings so far and the handles held (M_open);
    [hist n] is what opening number n meets. *)
Definition fworld := (nat * list gostr)%type.
Definition timed (hist : nat -> view) (op : (bytes -> xzip + gerr) -> opener osw source) : opener fworld source :=
  fun fn w =>
    let v := hist (fst w) in
    let '(r, w') := op (fun _ => v_zip v) fn (mkOs (fun _ => v_file v) (snd w)) in
    (r, (S (fst w), os_held w')).

Section Timed.
  Variable fuel : nat.
  Variable sizes : nat -> Z.
  Variables sp1 sp2 sp3 : bytes.
  Variable order : list gostr -> list gostr.
  Variable iter : list (Z * Z) -> list (Z * Z).
  Variable rd : bytes -> option gerr -> list (list gostr) * csv_end.
  Variable hist : nat -> view.
  (** the Register calls of M_open.stock, over this world *)
  Definition timed_stock : list (src_open_tab fworld source) :=
    [ mkTab (bs "xls") 1 (timed hist (fun _ => xls_open fuel sizes sp1 sp2 sp3));
      mkTab (bs "xlsx") 5 (timed hist (fun unzip => xlsx_open unzip order));
      mkTab (bs "tsv") 10 (timed hist (fun _ => tsv_open iter));
      mkTab (bs "csv") 15 (timed hist (fun _ => csv_open iter rd)) ].
End Timed.

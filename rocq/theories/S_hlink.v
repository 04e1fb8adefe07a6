(** * S_hlink: the Hyperlink object of [MS-OSHARED] 2.3.7.1. *)
From Verif Require Import GoBase GoUnicode.

(** texts are UTF-16 code units without the terminator *)
Inductive target :=
| TString (us : list Z)                                  (* moniker saved as a string *)
| TUrl (us : list Z) (extra : option (list Z))           (* URL moniker, with or without the 12 units of GUID, version and flags *)
| TFile (canti : Z) (ansi : bytes) (misc : bytes) (path : option (Z * list Z)). (* file moniker; path with its key value *)

Record hlink := mkHL {
  hl_class : bytes;                 (* 16 bytes *)
  hl_other : Z;                     (* the flag bits that add no field or only trailing ones *)
  hl_disp : option (list Z);
  hl_frame : option (list Z);
  hl_target : option target;
  hl_loc : option (list Z);
  hl_tail : bytes                   (* GUID and creation time *)
}.

Definition units16 (us : list Z) : bytes := flat_map put16 us.
(** HyperlinkString: character count and characters, both with the terminator *)
Definition hstring (us : list Z) : bytes := put32 (zlen us + 1) ++ units16 (us ++ [0]).
Definition hopt (o : option (list Z)) : bytes := match o with None => [] | Some us => hstring us end.

Definition url_class : bytes := [224; 201; 234; 121; 249; 186; 206; 17; 140; 130; 0; 170; 0; 75; 169; 11].
Definition file_class : bytes := [3; 3; 0; 0; 0; 0; 0; 0; 192; 0; 0; 0; 0; 0; 0; 70].
Definition target_bytes (t : target) : bytes :=
  match t with
  | TString us => hstring us
  | TUrl us extra =>
      let all := us ++ [0] ++ match extra with None => [] | Some e => e end in
      url_class ++ put32 (2 * zlen all) ++ units16 all
  | TFile canti ansi misc path =>
      file_class ++ put16 canti ++ put32 (zlen ansi) ++ ansi ++ misc ++
      match path with
      | None => put32 0
      | Some (k, us) => put32 (6 + 2 * zlen us) ++ put32 (2 * zlen us) ++ put16 k ++ units16 us
      end
  end.
Definition flag_if (b : bool) (n : Z) : Z := if b then n else 0.
Definition is_someb {A} (o : option A) : bool := match o with None => false | Some _ => true end.
(** 1 HasMoniker, 8 HasLocationStr, 16 HasDisplayName, 128 HasFrameName, 256 MonikerSavedAsStr *)
Definition hl_flags (h : hlink) : Z :=
  hl_other h + flag_if (is_someb (hl_target h)) 1 + flag_if (is_someb (hl_loc h)) 8 +
  flag_if (is_someb (hl_disp h)) 16 + flag_if (is_someb (hl_frame h)) 128 +
  flag_if (match hl_target h with Some (TString _) => true | _ => false end) 256.
Definition hl_bytes (h : hlink) : bytes :=
  hl_class h ++ put32 2 ++ put32 (hl_flags h) ++ hopt (hl_disp h) ++ hopt (hl_frame h) ++
  match hl_target h with None => [] | Some t => target_bytes t end ++ hopt (hl_loc h) ++ hl_tail h.

(** the texts *)
Definition otext (o : option (list Z)) : gostr := match o with None => [] | Some us => utf16_string us end.
Definition target_text (t : target) : gostr :=
  match t with
  | TString us | TUrl us _ => utf16_string us
  | TFile _ _ _ (Some (_, us)) => utf16_string us
  | TFile _ ansi _ None => ansi
  end.
(** the location within the document replaces the target *)
Definition link_text (h : hlink) : gostr :=
  match hl_loc h, hl_target h with
  | Some us, _ => utf16_string us
  | None, Some t => target_text t
  | None, None => []
  end.

(** blanks and NULs removed at both ends *)
Definition blankb (b : Z) : Prop := In b [32; 11; 12; 9; 13; 10; 0].
Definition trimmed (s t : gostr) : Prop :=
  (exists a b, s = a ++ t ++ b /\ Forall blankb a /\ Forall blankb b) /\
  (forall x t', t = x :: t' -> ~ blankb x) /\ (forall x t', t = t' ++ [x] -> ~ blankb x).

Definition fits16 (us : list Z) : Prop := Forall (fun u => 0 <= u < 65536) us /\ zlen us < 1000000000.
Definition ofits16 (o : option (list Z)) : Prop := match o with None => True | Some us => fits16 us end.
Definition hl_ok (h : hlink) : Prop :=
  zlen (hl_class h) = 16 /\ 0 <= hl_other h < 4294967296 - 512 /\ Z.land (hl_other h) 409 = 0 /\
  ofits16 (hl_disp h) /\ ofits16 (hl_frame h) /\ ofits16 (hl_loc h) /\
  match hl_target h with
  | None => True
  | Some (TString us) => fits16 us
  | Some (TUrl us extra) => fits16 us /\ Forall (fun u => u <> 0) us /\ match extra with None => True | Some e => Forall (fun u => 0 <= u < 65536) e /\ zlen e = 12 end
  | Some (TFile canti ansi misc path) => 0 <= canti < 65536 /\ zlen ansi < 4294967296 /\ zlen misc = 24 /\ match path with None => True | Some (_, us) => fits16 us end
  end.

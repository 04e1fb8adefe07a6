(** * GoPath: path/filepath on Unix and two functions of package strings. *)
From Verif Require Import GoBase.

Definition slash : Z := 47.
Definition dot : gostr := [46].
Definition dotdot : gostr := [46; 46].

(** one element of Clean, on the reversed list of the elements kept so far.  (Go's Clean works
    byte by byte on a buffer; out.w > dotdot there means that the last element kept is not "..") *)
Definition clean_step (rooted : bool) (kept : list gostr) (seg : gostr) : list gostr :=
  if str_eqb seg [] || str_eqb seg dot then kept
  else if str_eqb seg dotdot then
    match kept with
    | [] => if rooted then [] else [dotdot]
    | top :: rest => if str_eqb top dotdot then dotdot :: kept else rest
    end
  else seg :: kept.
(** filepath.Clean *)
Definition path_clean (p : gostr) : gostr :=
  match p with
  | [] => dot
  | c :: _ =>
      let rooted := c =? slash in
      let kept := rev (fold_left (clean_step rooted) (split_byte slash p) []) in
      let out := (if rooted then [slash] else []) ++ join [slash] kept in
      match out with [] => dot | _ => out end
  end.
(** filepath.Join *)
Fixpoint path_join (l : list gostr) : gostr :=
  match l with
  | [] => []
  | [] :: l => path_join l
  | _ => path_clean (join [slash] l)
  end.
(** filepath.Base *)
Definition path_base (p : gostr) : gostr :=
  match p with
  | [] => dot
  | _ =>
      let p := rev (trim_left (Z.eqb slash) (rev p)) in
      match zdrop (last_index_any [slash] p + 1) p with [] => [slash] | b => b end
  end.
(** strings.TrimSuffix *)
Definition trim_suffix (p suf : gostr) : gostr :=
  let n := zlen p - zlen suf in
  if (0 <=? n) && str_eqb (zdrop n p) suf then ztake n p else p.

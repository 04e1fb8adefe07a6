(** * S_grate: what Open, Register and WrapErr are required to do. *)
From Verif Require Import GoBase M_grate.
From Coq Require Import Permutation Sorted.

(** An error "is not in this format" when ErrNotInFormat is on its unwrap chain. *)
Inductive on_chain (t : gerr) : gerr -> Prop :=
| chain_here : on_chain t t
| chain_step : forall e e', err_unwrap e = Some e' -> on_chain t e' -> on_chain t e.

Definition comparable_err (t : gerr) : Prop := match t with EWrap _ => False | _ => True end.

(** [skips tab fn w w']: calling every opener of [tab] in order, starting in world [w],
    each one reports not-in-format, and the world afterwards is [w']. *)
Inductive skips {W S} (fn : gostr) : list (src_open_tab W S) -> W -> W -> Prop :=
| skips_nil : forall w, skips fn [] w w
| skips_cons : forall o tab w w1 w2 e,
    tab_op o fn w = (Err e, w1) -> on_chain ENotInFormat e ->
    skips fn tab w1 w2 -> skips fn (o :: tab) w w2.

(** The contract of sort.Slice for the comparison "smaller priority first". *)
Definition by_pri {W S} (a b : src_open_tab W S) : Prop := tab_pri a <= tab_pri b.
Definition sorts_by_priority {W S} (srt : list (src_open_tab W S) -> list (src_open_tab W S)) : Prop :=
  forall l, Permutation l (srt l) /\ StronglySorted by_pri (srt l).

(** The table after a history of Register calls. *)
Definition registered {W S} srt (hist : list (src_open_tab W S)) : list (src_open_tab W S) :=
  fold_left (fun t e => register srt t (tab_name e) (tab_pri e) (tab_op e)) hist [].

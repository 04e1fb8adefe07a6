(** * P_blanks: property C109 — numbers behind blanks are compared as numbers *)
From Coq Require Import Reals.
From Flocq Require Import Core IEEE754.BinarySingleNaN.
From Verif Require Import GoBase GoFloat M_value M_cell L_base L_float S_numtext P_numtext.
Open Scope Z_scope.
Local Opaque f_of_dec.

(** Blanks and tabs before the numeral make no difference to comparing text with a number. *)
Theorem C109_less_blanks : forall w s neg m nf x y r1 r2, Forall (fun c => c = 32 \/ c = 9) w ->
  numeral s neg m nf x -> Z.abs x < 100000 \/ zlen s <= 9000 ->
  fits64 (dec_value neg m nf x) -> f_is_finite y = true ->
  (exists b, cell_less (GStr (w ++ s) :: r1) (GF64 y :: r2) = Ok b /\ (b = true <-> (near64 (dec_value neg m nf x) < B2R y)%R)) /\
  (exists b, cell_less (GF64 y :: r2) (GStr (w ++ s) :: r1) = Ok b /\ (b = true <-> (B2R y < near64 (dec_value neg m nf x))%R)).
Proof.
  intros w s neg m nf x y r1 r2 W H L F Y. destruct (parse_near s neg m nf x H L) as (a & (SA & NA & _) & F1 & _). destruct (NA F) as [FA VA].
  assert (TW : trim_left is_space (w ++ s) = trim_left is_space s) by (induction W as [|c w [->| ->] _ IH]; [reflexivity|exact IH|exact IH]).
  assert (G : sscanf_g (w ++ s) = Some a) by (unfold sscanf_g; rewrite TW, (token_numeral _ _ _ _ _ H), (F1 F); reflexivity).
  unfold cell_less. change (idx (GF64 y :: r2) 0) with (Ok (GF64 y)). change (idx (GStr (w ++ s) :: r1) 0) with (Ok (GStr (w ++ s))). cbn [bind]. rewrite G.
  rewrite <- VA. split; eexists; (split; [reflexivity|]); apply flt_real; auto.
Qed.
Local Transparent f_of_dec.
Example ex_C109_less_blanks : cell_less [GStr (bs "  -12.50e-3"); GCType StringCell] [GF64 f_zero; GCType FloatCell] = Ok true /\
  cell_less [GF64 f_zero; GCType FloatCell] [GStr (bs "  -12.50e-3"); GCType StringCell] = Ok false /\ numeral (bs "-12.50e-3") true 1250 2 (-3).
Proof. split; [vm_compute; reflexivity|]. split; [vm_compute; reflexivity|exact ex_C109_numeral]. Qed.

Print Assumptions C109_less_blanks.

(** * P_money: property C113 — amounts under the formats for money *)
From Coq Require Import Reals Lra Psatz.
From Flocq Require Import Core IEEE754.BinarySingleNaN.
From Verif Require Import P_formats GoBase GoFloat M_value M_fmt M_formats S_formats S_display S_custom L_base L_float S_numtext P_numtext S_amount P_amount.
From Verif Require P_display P_codes P_percent.
Open Scope Z_scope.
Local Opaque f_of_dec.

(** An amount with two decimals is shown exactly, in parentheses if it is negative, by the formats
    39 and 40. *)
Theorem C113_parens : forall x id v neg n, In id [39; 40] -> amount v neg n 2 ->
  exists ip fp u, amount_digits n 2 ip fp /\ in_thousands ip u /\
    fx_apply x id (GF64 v) = Ok (if neg then bs "(" ++ u ++ bs "." ++ fp ++ bs ")" else u ++ bs "." ++ fp, true).
Proof.
  intros x id v neg n I A. destruct (C24_builtin_floats x id v I (proj1 A)) as (ip & fp & u & S & D & T & E). destruct (amount_split v neg n 2 ip fp A ltac:(lia) D S) as [G _]. exists ip, fp, u. split; [exact G|]. split; [exact T|]. destruct A as (_ & _ & (SV & _)). assert (B : Bsign v = neg) by exact SV. rewrite E, B. reflexivity.
Qed.
Lemma one_point : forall a a' b b', Forall is_dig a' -> Forall is_dig b' -> a ++ 46 :: b = a' ++ 46 :: b' -> a = a' /\ b = b'.
Proof.
  induction a as [|c a IH]; intros [|c' a'] b b' H H' E; cbn [app] in E; injection E; intros; subst; auto.
  - inversion H as [|? ? Q]. unfold is_dig in Q. lia.
  - rewrite Forall_forall in H'. specialize (H' 46 ltac:(apply in_or_app; right; left; reflexivity)). unfold is_dig in H'. lia.
  - inversion H; subst. destruct (IH a' b b') as [-> ->]; auto.
Qed.
(** ... and an amount above 0 by the accounting formats 43 and 44, the latter with a dollar sign. *)
Theorem C113_accounting : forall x id v n, In id [43; 44] -> amount v false n 2 -> 1 <= n ->
  exists ip fp u, amount_digits n 2 ip fp /\ in_thousands ip u /\
    fx_apply x id (GF64 v) = Ok ((if id =? 44 then bs "$" else []) ++ u ++ bs "." ++ fp, true).
Proof.
  intros x id v n I A N. assert (SV : Bsign v = false) by (destruct A as (_ & _ & (SV & _)); exact SV).
  assert (V : (0 < B2R v)%R).
  { pose proof (amount_close v false n 2 A ltac:(lia)) as C. apply Rabs_le_inv in C. assert (1 <= IZR n)%R by (apply IZR_le; lia). change (IZR (10 ^ 2)) with 100%R in C.
    destruct (Rlt_le_dec (B2R v) 0) as [L|L]; [destruct (P_codes.neg_class v (proj1 A) L) as [_ S]; rewrite S in SV; discriminate SV|]. rewrite Rabs_pos_eq in C by exact L. lra. }
  destruct (P_display.C80_floats x id v I (proj1 A) V) as (ip & fp & u & S & T & E). rewrite <- SV in S.
  destruct (amount_shown v false n 2 _ A ltac:(lia) S) as (ip' & fp' & X & D). cbn [app] in X.
  destruct (one_point ip ip' fp fp' (proj1 D) (proj1 (proj2 D)) X) as [-> ->]. exists ip', fp', u. split; [exact D|]. split; [exact T|exact E].
Qed.

Example ex_C113_money : amount (fl (bs "1234567.89")) false 123456789 2 /\ amount (fl (bs "-0.10")) true 10 2 /\
  fx_apply new_formatter 44 (GF64 (fl (bs "1234567.89"))) = Ok (bs "$1,234,567.89", true) /\
  fx_apply new_formatter 39 (GF64 (fl (bs "-0.10"))) = Ok (bs "(0.10)", true).
Proof.
  split; [|split; [|split; vm_compute; reflexivity]].
  - apply (P_percent.fl_amount false 123456789 2 (bs "1234567") (bs "89")); [P_percent.digits|lia|vm_compute; reflexivity|vm_compute; reflexivity].
  - apply (P_percent.fl_amount true 10 2 (bs "0") (bs "10")); [P_percent.digits|lia|vm_compute; reflexivity|vm_compute; reflexivity].
Qed.

Print Assumptions C113_parens.
Print Assumptions C113_accounting.

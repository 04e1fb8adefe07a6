(** * L_numcode: what makeFormatter makes of a number code. *)
From Verif Require Import GoBase GoFloat GoUnicode L_base M_value M_numbers M_fmt M_formats S_formats S_display S_custom L_formats L_custom.
From Coq Require Import Lia ZifyBool ZifyNat.
Open Scope Z_scope.

(** ** Pieces of text, quoted or not *)
Definition raw (p : bool * gostr) : gostr := if fst p then 34 :: snd p ++ [34] else snd p.
Definition piece_ok (p : bool * gostr) : Prop := snd p <> [] /\ no_q (snd p).
Fixpoint apart (l : list (bool * gostr)) : Prop :=
  match l with
  | (true, _) :: ((true, _) :: _) => False
  | _ :: r => apart r
  | [] => True
  end.
Lemma apart_tail : forall p l, apart (p :: l) -> apart l.
Proof. intros [[] u] [|[[] v] l]; simpl; tauto. Qed.
Lemma raw_nil : forall n l, (List.length l <= n)%nat -> Forall piece_ok l -> apart l -> forall w st, w <> [] -> no_q w ->
  non_esc_from st (w ++ concat (map raw l)) = w ++ concat (map snd l).
Proof.
  induction n as [|n IH]; intros l Hn HF HA w st Hw Hq.
  { destruct l; [|simpl in Hn; lia]. simpl concat. rewrite !app_nil_r. rewrite <- (app_nil_r w) at 1. rewrite non_esc_word by auto. simpl. apply app_nil_r. }
  destruct l as [|[q u] l].
  { simpl concat. rewrite !app_nil_r. rewrite <- (app_nil_r w) at 1. rewrite non_esc_word by auto. simpl. apply app_nil_r. }
  inversion HF as [|? ? [U2 U1] HF']; subst. pose proof (apart_tail _ _ HA) as HA'. cbn [map concat]. unfold raw at 1. cbn [fst snd] in *.
  cbn [List.length] in Hn. destruct q.
  - rewrite <- app_comm_cons, <- app_assoc. change ([34] ++ concat (map raw l)) with (34 :: concat (map raw l)).
    rewrite non_esc_quote, non_esc_quote by auto. f_equal. f_equal.
    destruct l as [|[[] v] l]; [reflexivity|contradiction|].
    inversion HF' as [|? ? [V2 V1] HF'']; subst. cbn [map concat]. unfold raw at 1. cbn [fst snd] in *.
    rewrite (IH l); auto; simpl in Hn; lia.
  - rewrite app_assoc. rewrite (IH l); auto; [rewrite <- app_assoc; reflexivity|lia| |].
    + intros Q. apply app_eq_nil in Q as [Q _]. auto.
    + unfold no_q in *. rewrite in_app_iff. tauto.
Qed.
Lemma non_esc_pieces : forall l, Forall piece_ok l -> apart l -> non_esc (concat (map raw l)) = concat (map snd l).
Proof.
  intros l HF HA. unfold non_esc. destruct l as [|[q u] l]; [reflexivity|].
  inversion HF as [|? ? [U2 U1] HF']; subst. pose proof (apart_tail _ _ HA) as HA'. cbn [map concat]. unfold raw at 1. cbn [fst snd] in *.
  destruct q.
  - rewrite <- app_comm_cons, <- app_assoc. change ([34] ++ concat (map raw l)) with (34 :: concat (map raw l)).
    cbn [non_esc_from]. rewrite Z.eqb_refl, non_esc_quote by auto. f_equal.
    destruct l as [|[[] v] l]; [reflexivity|contradiction|].
    inversion HF' as [|? ? [V2 V1] HF'']; subst. cbn [map concat]. unfold raw at 1. cbn [fst snd] in *.
    rewrite (raw_nil (List.length l) l); auto.
  - rewrite (raw_nil (List.length l) l); auto.
Qed.
Lemma rm_word : forall w s n, (List.length (w ++ s) <= n)%nat -> no_q w ->
  rm_delim n 34 34 (w ++ s) = w ++ rm_delim (n - List.length w) 34 34 s.
Proof.
  induction w as [|x w IHw]; intros s n Hn Hq; [simpl; rewrite Nat.sub_0_r; auto|]. destruct n as [|n]; [simpl in Hn; lia|].
  rewrite <- !app_comm_cons. cbn [rm_delim]. destruct (Z.eqb_spec x 34); [exfalso; apply Hq; left; auto|]. f_equal.
  apply IHw; [simpl in Hn; lia|]. intros Q. apply Hq. right. auto.
Qed.
Lemma rm_pieces : forall l n, (List.length (concat (map raw l)) <= n)%nat -> Forall piece_ok l ->
  rm_delim n 34 34 (concat (map raw l)) = concat (map (fun p : bool * gostr => if fst p then [] else snd p) l).
Proof.
  induction l as [|[q u] l IH]; intros n Hn HF; [destruct n; reflexivity|].
  inversion HF as [|? ? [U2 U1] HF']; subst. cbn [map concat] in *. unfold raw at 1 in Hn. unfold raw at 1. cbn [fst snd] in *. destruct q.
  - rewrite <- app_comm_cons, <- app_assoc in *. change ([34] ++ concat (map raw l)) with (34 :: concat (map raw l)) in *.
    destruct n as [|n]; [simpl in Hn; lia|]. cbn [rm_delim]. rewrite Z.eqb_refl.
    assert (EI : index_byte 34 (u ++ 34 :: concat (map raw l)) = zlen u).
    { unfold index_byte, index_where. pose proof (L_formats.index_from_app (Z.eqb 34) u (34 :: concat (map raw l)) 0) as Q.
      rewrite Q; [reflexivity| |right; eauto]. apply Forall_forall. intros x Hx. apply Z.eqb_neq. intros <-. apply U1. auto. }
    rewrite EI. pose proof (zlen_nonneg _ u). destruct (Z.ltb_spec (zlen u) 0); [lia|].
    replace (zdrop (zlen u + 1) (u ++ 34 :: concat (map raw l))) with (concat (map raw l)).
    2: { replace (u ++ 34 :: concat (map raw l)) with ((u ++ [34]) ++ concat (map raw l)) by (rewrite <- app_assoc; reflexivity).
         symmetry. apply zdrop_app_exact'. rewrite zlen_app. unfold zlen. simpl. lia. }
    apply IH; auto. cbn [List.length] in Hn. rewrite app_length in Hn. cbn [List.length] in Hn. lia.
  - rewrite rm_word by auto. f_equal. apply IH; auto. rewrite app_length in Hn. lia.
Qed.

(** ** Searching *)
Lemma contains_any_not : forall set s, Forall (fun c => ~ In c set) s -> contains_any set s = false.
Proof.
  intros set s H. unfold contains_any, index_any, index_where.
  pose proof (L_formats.index_from_app (fun c => existsb (Z.eqb c) set) s [] 0) as Q. rewrite app_nil_r in Q.
  rewrite Q; [reflexivity| |auto]. eapply Forall_impl; [|exact H]. cbv beta. intros c Hc.
  apply not_true_is_false. intros E. apply existsb_exists in E as (y & Hy & E). apply Z.eqb_eq in E. subst. auto.
Qed.
Lemma index_at : forall p a c r, Forall (fun x => p x = false) a -> p c = true -> index_where p (a ++ c :: r) = zlen a.
Proof. intros p a c r H1 H2. unfold index_where. rewrite L_formats.index_from_app; auto. right. eauto. Qed.
Lemma last_none : forall p a i best, Forall (fun x => p x = false) a -> last_index_from p i best a = best.
Proof. induction a as [|x a IH]; intros i best H; [reflexivity|]. inversion H as [|? ? H1 H2]; subst. cbn [last_index_from]. rewrite H1. auto. Qed.
Lemma last_at : forall p a c r i best, p c = true -> Forall (fun x => p x = false) r ->
  last_index_from p i best (a ++ c :: r) = i + zlen a.
Proof.
  induction a as [|x a IH]; intros c r i best H1 H2.
  - simpl app. cbn [last_index_from]. rewrite H1, last_none by auto. unfold zlen. simpl. lia.
  - rewrite <- app_comm_cons. cbn [last_index_from]. rewrite IH by auto. rewrite zlen_cons. lia.
Qed.
Lemma containsb_in : forall c s, containsb [c] s = existsb (Z.eqb c) s.
Proof. induction s as [|x s IH]; [reflexivity|]. cbn [containsb existsb prefixb]. rewrite IH, andb_true_r. reflexivity. Qed.
Lemma remove_not : forall b s, ~ In b s -> remove_byte b s = s.
Proof.
  induction s as [|x s IH]; intros H; [reflexivity|]. unfold remove_byte in *. cbn [filter].
  destruct (Z.eqb_spec x b); [exfalso; apply H; left; auto|]. cbn [negb]. f_equal. apply IH. intros Q. apply H. right. auto.
Qed.
Lemma remove_app : forall b s t, remove_byte b (s ++ t) = remove_byte b s ++ remove_byte b t.
Proof. intros. apply filter_app. Qed.
Lemma take_while_app : forall p a t, Forall (fun x => p x = true) a -> (forall c r, t = c :: r -> p c = false) -> take_while p (a ++ t) = a.
Proof.
  induction a as [|x a IH]; intros t Ha Ht.
  - destruct t as [|c r]; [reflexivity|]. cbn [app take_while]. rewrite (Ht c r eq_refl). reflexivity.
  - inversion Ha as [|? ? H1 H2]; subst. rewrite <- app_comm_cons. cbn [take_while]. rewrite H1, IH by auto. reflexivity.
Qed.
Lemma trim_left_app : forall p a t, Forall (fun x => p x = true) a -> (forall c r, t = c :: r -> p c = false) -> trim_left p (a ++ t) = t.
Proof.
  induction a as [|x a IH]; intros t Ha Ht.
  - destruct t as [|c r]; [reflexivity|]. cbn [app trim_left]. rewrite (Ht c r eq_refl). reflexivity.
  - inversion Ha as [|? ? H1 H2]; subst. rewrite <- app_comm_cons. cbn [trim_left]. rewrite H1. auto.
Qed.
Lemma rm_exp_word : forall w s n, (List.length (w ++ s) <= n)%nat -> Forall (fun c => is_e c = false) w ->
  rm_exp_fuel n (w ++ s) = w ++ rm_exp_fuel (n - List.length w) s.
Proof.
  induction w as [|x w IH]; intros s n Hn H; [simpl; rewrite Nat.sub_0_r; auto|]. inversion H as [|? ? H1 H3]; subst.
  destruct n as [|n]; [simpl in Hn; lia|]. rewrite <- !app_comm_cons. cbn [rm_exp_fuel]. rewrite H1. f_equal. rewrite IH; auto. simpl in Hn. lia.
Qed.

(** ** Literals *)
Definition lp (l : lit) : bool * gostr := match l with LQuo u => (true, u) | l => (false, lit_text l) end.
Lemma lit_bytes : forall l, lit_ok l -> Forall (fun c => ~ In c (bs "Ee.,0#?;[*_") /\ c <> 10 /\ (c = 37 -> l = LPct)) (lit_text l).
Proof.
  assert (K : forall c, quo_byte c -> ~ In c (bs "Ee.,0#?;[*_") /\ c <> 10 /\ c <> 37).
  { intros c [H1 H2]. split; [|split; auto].
    - intros Q. apply H1. cbv [bs In] in *. simpl in *. tauto.
    - intros ->. apply H1. cbv [bs In]. simpl. tauto. }
  assert (K2 : forall c, txt_byte c -> quo_byte c).
  { intros c [H1 H2]. split; auto. intros Q. apply H1. cbv [bs In] in *. simpl in *. tauto. }
  intros l Hl. destruct l as [w|c|u|]; cbn [lit_ok lit_text] in *.
  - destruct Hl as [_ Hl]. eapply Forall_impl; [|exact Hl]. intros c Hc. apply K2, K in Hc. destruct Hc as (A & B & C). repeat split; auto. tauto.
  - destruct Hl as [Hc _]. apply K2, K in Hc. destruct Hc as (A & B & C). constructor; [|constructor; [repeat split; auto; tauto|constructor]].
    split; [cbv [bs In]; simpl; lia|]. split; lia.
  - destruct Hl as [_ Hl]. assert (Q : ~ In 34 (bs "Ee.,0#?;[*_") /\ 34 <> 10 /\ (34 = 37 -> LQuo u = LPct)) by (split; [cbv [bs In]; simpl; lia|]; split; [lia|intros Q; discriminate]).
    apply Forall_app. split; [constructor; [exact Q|constructor]|]. apply Forall_app. split; [|constructor; [exact Q|constructor]].
    eapply Forall_impl; [|exact Hl]. intros c Hc. apply K in Hc. destruct Hc as (A & B & C). repeat split; auto. tauto.
  - change (bs "%") with [37]. constructor; [|constructor]. split; [cbv [bs In]; simpl; lia|]. split; [lia|auto].
Qed.
Lemma lits_bytes : forall l, Forall lit_ok l -> Forall (fun c => ~ In c (bs "Ee.,0#?;[*_") /\ c <> 10) (concat (map lit_text l)).
Proof.
  induction l as [|a l IH]; intros H; [constructor|]. inversion H as [|? ? H1 H2]; subst. cbn [map concat]. apply Forall_app. split; auto.
  eapply Forall_impl; [|apply lit_bytes; exact H1]. cbv beta. tauto.
Qed.
Lemma lits_pct : forall l, Forall lit_ok l -> (In 37 (concat (map lit_text l)) <-> In LPct l).
Proof.
  intros l HF. split.
  - intros H. apply in_concat in H as (w & Hw & Hc). apply in_map_iff in Hw as (a & <- & Ha). rewrite Forall_forall in HF.
    pose proof (lit_bytes a (HF a Ha)) as B. rewrite Forall_forall in B. destruct (B 37 Hc) as (_ & _ & Q). rewrite Q in Ha; auto.
  - intros H. apply in_concat. exists (bs "%"). split; [|left; reflexivity]. apply in_map_iff. exists LPct. auto.
Qed.
Lemma lp_raw : forall l, raw (lp l) = lit_text l. Proof. intros []; reflexivity. Qed.
Lemma lp_ok : forall l, lit_ok l -> piece_ok (lp l).
Proof.
  intros l Hl. unfold piece_ok, no_q. destruct l as [w|c|u|]; cbn [lp fst snd lit_text lit_ok] in *.
  - destruct Hl as [H1 H2]. split; auto. intros Q. rewrite Forall_forall in H2. destruct (H2 _ Q) as [A _]. apply A. cbv [bs In]; simpl; tauto.
  - split; [discriminate|]. intros [Q|[Q|[]]]; [lia|]. subst c. destruct Hl as [[A _] _]. apply A. cbv [bs In]; simpl; tauto.
  - destruct Hl as [H1 H2]. split; auto. intros Q. rewrite Forall_forall in H2. destruct (H2 _ Q) as [A _]. apply A. cbv [bs In]; simpl; tauto.
  - split; [discriminate|]. cbv. lia.
Qed.
Lemma lp_apart : forall l, lits_apart l -> apart (map lp l).
Proof.
  induction l as [|a l IH]; intros H; [exact I|]. destruct a as [w|c|u|]; try (apply IH; exact H).
  destruct l as [|b l]; [exact I|]. destruct b as [w|c|v|]; try (apply IH; exact H). contradiction.
Qed.
Lemma lits_raw : forall l, concat (map raw (map lp l)) = concat (map lit_text l).
Proof. intros l. rewrite map_map. f_equal. apply map_ext. apply lp_raw. Qed.

Lemma clean_lits : forall l, lits_ok l -> clean_text (concat (map lit_text l)) = lits_show l.
Proof.
  intros l [HF HA]. unfold clean_text. rewrite <- lits_raw, non_esc_pieces.
  - rewrite map_map. unfold squash. rewrite squash_id; auto.
    + unfold fix_esc. assert (K : forall n, (List.length (concat (map (fun x => snd (lp x)) l)) <= n)%nat ->
        fix_esc_fuel n (concat (map (fun x => snd (lp x)) l)) = lits_show l); [|apply K; auto].
      clear HA. induction l as [|a l IH]; intros n Hn; [destruct n; reflexivity|]. inversion HF as [|? ? Ha HF']; subst.
      cbn [map concat] in *. unfold lits_show. cbn [map concat]. fold (lits_show l).
      assert (D : (exists c, a = LEsc c) \/ (Forall (fun c => c <> 92) (snd (lp a)) /\ lit_shows a = snd (lp a))).
      { destruct a as [w|c|u|]; cbn [lp snd lit_text lit_ok lit_shows] in *.
        - right. split; auto. destruct Ha as [_ Ha]. eapply Forall_impl; [|exact Ha]. intros c [A _] ->. apply A. cbv [bs In]; simpl; tauto.
        - left. eauto.
        - right. split; auto. destruct Ha as [_ Ha]. eapply Forall_impl; [|exact Ha]. intros c [A _] ->. apply A. cbv [bs In]; simpl; tauto.
        - right. split; auto. change (bs "%") with [37]. constructor; [lia|constructor]. }
      destruct D as [[c ->]|[D1 D2]].
      * cbn [lp snd lit_text lit_shows lit_ok] in *. destruct Ha as [[_ A2] A3].
        rewrite <- !app_comm_cons in *. simpl app in *. destruct n as [|n]; [simpl in Hn; lia|]. cbn [fix_esc_fuel]. rewrite Z.eqb_refl.
        rewrite dec1_ascii by lia. destruct (Z.eqb_spec c 10); [lia|]. cbn [firstn skipn app]. f_equal. apply IH; auto. simpl in Hn. lia.
      * rewrite fix_esc_word by auto. rewrite D2. f_equal. apply IH; auto. rewrite app_length in Hn. lia.
    + apply Forall_forall. intros c Hc. apply in_concat in Hc as (w & Hw & Hc). apply in_map_iff in Hw as (a & <- & Ha).
      rewrite Forall_forall in HF. pose proof (lit_bytes a (HF a Ha)) as B. rewrite Forall_forall in B.
      assert (In c (lit_text a)) as Hc2.
      { destruct a; cbn [lp snd lit_text] in *; auto. apply in_or_app. right. apply in_or_app. left. auto. }
      destruct (B c Hc2) as (Q & _ & _). split; intros ->; apply Q; cbv [bs In]; simpl; tauto.
  - apply Forall_map. eapply Forall_impl; [|exact HF]. apply lp_ok.
  - apply lp_apart. auto.
Qed.

(** ** The formatter of a number code *)
Definition plain_digits (group : bool) (k : digits) : gostr :=    (* without the exponent *)
  digits_text group match k with Sci p _ _ _ => Fixed p | k => k end.
Definition decimals (k : digits) : Z := match k with Whole => 0 | Fixed p | Sci p _ _ _ => Z.of_nat p end.
Definition number_ff (pct : bool) (group : bool) (k : digits) : ffun :=
  let ff := match k with
            | Whole => FSprintf (mkFmt 0 None VD false) (if pct then 100 else 1)
            | Fixed p => FSprintf (mkFmt (Z.of_nat p + 1) (Some (Z.of_nat p)) VF false) (if pct then 100 else 1)
            | Sci p _ _ _ => FSprintf (mkFmt (Z.of_nat p + 1) (Some (Z.of_nat p)) VE false) (if pct then 100 else 1)
            end in
  if group then FCommas ff else ff.
Definition number_type (k : digits) : ctype := match k with Whole => IntegerCell | _ => FloatCell end.

Lemma repeat_snoc : forall (A : Type) (a : A) n, repeat a (S n) = repeat a n ++ [a].
Proof. intros A a n. change (S n) with (1 + n)%nat. rewrite Nat.add_comm, repeat_app. reflexivity. Qed.

(** the three positions in the code without commas *)
Lemma positions : forall A B group k, digits_ok k -> Forall (fun c => ~ In c (bs "Ee.,0#?;[*_")) A -> Forall (fun c => ~ In c (bs "Ee.,0#?;[*_")) B ->
  let s2 := remove_byte 44 (A ++ plain_digits group k ++ B) in
  last_index_any (bs "0.") s2 - index_any (bs "0") s2 = (match k with Whole => 0 | _ => decimals k + 1 end) /\
  (k <> Whole -> last_index_any (bs "0.") s2 - index_byte 46 s2 = decimals k) /\
  (forall c, c <> 44 -> (In c s2 <-> In c (A ++ plain_digits group k ++ B))).
Proof.
  intros A B group k Hk HA HB s2.
  assert (NA : forall l, Forall (fun c => ~ In c (bs "Ee.,0#?;[*_")) l -> ~ In 44 l).
  { intros l Hl Q. rewrite Forall_forall in Hl. apply (Hl 44 Q). cbv [bs In]; simpl; tauto. }
  assert (NS : forall l set, incl set (bs "Ee.,0#?;[*_") -> Forall (fun c => ~ In c (bs "Ee.,0#?;[*_")) l ->
    Forall (fun x => existsb (Z.eqb x) set = false) l).
  { intros l set Hs Hl. eapply Forall_impl; [|exact Hl]. cbv beta. intros c Hc. apply not_true_is_false. intros E.
    apply existsb_exists in E as (y & Hy & E). apply Z.eqb_eq in E. subst. auto. }
  set (H := bs (if group then "###" else "")).
  set (Tl := match k with Whole => [] | Fixed p | Sci p _ _ _ => 46 :: repeat 48 p end).
  assert (E2 : s2 = A ++ H ++ 48 :: Tl ++ B).
  { unfold s2. rewrite !remove_app, (remove_not 44 A), (remove_not 44 B) by auto. f_equal.
    assert (P : remove_byte 44 (plain_digits group k) = H ++ 48 :: Tl).
    { unfold plain_digits, digits_text, H, Tl.
      assert (R : forall p, remove_byte 44 (repeat 48 p) = repeat 48 p).
      { intros p. apply remove_not. intros Q. apply repeat_spec in Q. lia. }
      destruct group, k; rewrite ?remove_app, ?R; reflexivity. }
    rewrite P, <- app_assoc. reflexivity. }
  split; [|split].
  - rewrite E2. unfold index_any. rewrite app_assoc. rewrite index_at; [|apply Forall_app; split; [apply NS; [intros x; cbv [bs In]; simpl; tauto|assumption]|unfold H; destruct group; repeat constructor]|reflexivity].
    unfold last_index_any. destruct k as [|p|p low minus z]; unfold Tl; cbn [digits_ok decimals] in *.
    + simpl app. rewrite last_at; [lia|reflexivity|apply NS; [intros x; cbv [bs In]; simpl; tauto|assumption]].
    + destruct p as [|p]; [lia|]. rewrite repeat_snoc.
      replace ((A ++ H) ++ 48 :: (46 :: repeat 48 p ++ [48]) ++ B) with (((A ++ H) ++ 48 :: 46 :: repeat 48 p) ++ 48 :: B)
        by (rewrite <- !app_assoc; cbn [app]; rewrite <- !app_assoc; reflexivity). rewrite last_at; [|reflexivity|apply NS; [intros x; cbv [bs In]; simpl; tauto|assumption]].
      rewrite (zlen_app _ (A ++ H)), !zlen_cons. unfold zlen at 2. rewrite repeat_length. lia.
    + destruct p as [|p]; [lia|]. rewrite repeat_snoc.
      replace ((A ++ H) ++ 48 :: (46 :: repeat 48 p ++ [48]) ++ B) with (((A ++ H) ++ 48 :: 46 :: repeat 48 p) ++ 48 :: B)
        by (rewrite <- !app_assoc; cbn [app]; rewrite <- !app_assoc; reflexivity). rewrite last_at; [|reflexivity|apply NS; [intros x; cbv [bs In]; simpl; tauto|assumption]].
      rewrite (zlen_app _ (A ++ H)), !zlen_cons. unfold zlen at 2. rewrite repeat_length. lia.
  - intros Hw. assert (D : exists p, 1 <= Z.of_nat p /\ Tl = 46 :: repeat 48 p /\ decimals k = Z.of_nat p).
    { destruct k as [|p|p low minus z]; [congruence| |]; exists p; cbn [digits_ok] in Hk; repeat split; lia. }
    destruct D as (p & Hp & ET & ED). rewrite ED, E2, ET. rewrite app_assoc.
    replace ((A ++ H) ++ 48 :: (46 :: repeat 48 p) ++ B) with (((A ++ H) ++ [48]) ++ 46 :: repeat 48 p ++ B) by (rewrite <- !app_assoc; reflexivity).
    unfold index_byte. rewrite index_at; [|apply Forall_app; split; [apply Forall_app; split|]|reflexivity].
    + destruct p as [|p]; [lia|]. rewrite repeat_snoc.
      replace (((A ++ H) ++ [48]) ++ 46 :: (repeat 48 p ++ [48]) ++ B) with ((((A ++ H) ++ [48]) ++ 46 :: repeat 48 p) ++ 48 :: B) by (rewrite <- !app_assoc; reflexivity).
      unfold last_index_any. rewrite last_at; [|reflexivity|apply NS; [intros x; cbv [bs In]; simpl; tauto|assumption]].
      rewrite (zlen_app _ ((A ++ H) ++ [48])), !zlen_cons. unfold zlen at 2. rewrite repeat_length. lia.
    + eapply Forall_impl; [|exact HA]. cbv beta. intros c Hc. apply Z.eqb_neq. intros <-. apply Hc. cbv [bs In]; simpl; tauto.
    + unfold H. destruct group; repeat constructor.
    + repeat constructor.
  - intros c Hc. unfold s2, remove_byte. rewrite filter_In. split; [tauto|]. intros Q. split; auto. apply negb_true_iff. lia.
Qed.

Definition has_pct (l : list lit) : bool := existsb (fun i => match i with LPct => true | _ => false end) l.
Lemma has_pct_in : forall l, has_pct l = true <-> In LPct l.
Proof.
  intros l. unfold has_pct. rewrite existsb_exists. split.
  - intros (i & Hi & E). destruct i; try discriminate. auto.
  - intros H. exists LPct. auto.
Qed.

Definition digit_set : gostr := bs "#,0.E+e-".
Lemma digits_bytes : forall group k, Forall (fun c => In c digit_set) (digits_text group k).
Proof.
  assert (R : forall p, Forall (fun c => In c digit_set) (repeat 48 p)).
  { intros p. apply Forall_forall. intros c Q. apply repeat_spec in Q. subst. cbv [digit_set bs In]; simpl; tauto. }
  intros group k. unfold digits_text. apply Forall_app. split.
  - destruct group; apply Forall_forall; intros c; cbv [digit_set bs In]; simpl; tauto.
  - destruct k as [|p|p low minus z]; [constructor| |]; repeat (apply Forall_app; split); auto;
    try (unfold expo_text; constructor; [|constructor; [|apply R]]; [destruct low|destruct minus]; cbv [digit_set bs In]; simpl; tauto);
    apply Forall_forall; intros c; cbv [digit_set bs In]; simpl; tauto.
Qed.
Lemma digits_ne : forall group k, digits_text group k <> [].
Proof. intros [] k; discriminate. Qed.
Lemma plain_marks : forall group k, Forall (fun c => is_num_mark c = true) (plain_digits group k).
Proof.
  intros group k. unfold plain_digits, digits_text. apply Forall_app. split; [destruct group; repeat constructor|].
  assert (R : forall p, Forall (fun c => is_num_mark c = true) (repeat 48 p)).
  { intros p. apply Forall_forall. intros c Q. apply repeat_spec in Q. subst. reflexivity. }
  destruct k as [|p|p low minus z]; [constructor| |]; (apply Forall_app; split; [repeat constructor|auto]).
Qed.
Lemma no_marks : forall l, Forall (fun c => ~ In c (bs "Ee.,0#?;[*_")) l -> Forall (fun c => is_num_mark c = false) l.
Proof.
  intros l H. eapply Forall_impl; [|exact H]. cbv beta. intros c Hc. unfold is_num_mark. apply not_true_is_false. intros E.
  apply existsb_exists in E as (y & Hy & E). apply Z.eqb_eq in E. subst. apply Hc. cbv [bs In] in *; simpl in *; tauto.
Qed.
Lemma sur_number : forall A B group k, Forall (fun c => ~ In c (bs "Ee.,0#?;[*_")) A -> Forall (fun c => ~ In c (bs "Ee.,0#?;[*_")) B ->
  sur_split (A ++ plain_digits group k ++ B) = (A, Some B).
Proof.
  intros A B group k HA HB. unfold sur_split.
  assert (E : take_while (fun c => negb (is_num_mark c)) (A ++ plain_digits group k ++ B) = A).
  { apply take_while_app.
    - eapply Forall_impl; [|apply no_marks; exact HA]. cbv beta. intros c ->. reflexivity.
    - intros c r E. pose proof (plain_marks group k) as M. destruct (plain_digits group k) as [|x d] eqn:Ed; [destruct group; discriminate|].
      rewrite <- app_comm_cons in E. injection E as <- _. inversion M as [|? ? M1 _]; subst. rewrite M1. reflexivity. }
  rewrite E. rewrite skipn_app, skipn_all, Nat.sub_diag. simpl app. cbn [skipn].
  destruct (plain_digits group k ++ B) as [|x r] eqn:Ed.
  - apply app_eq_nil in Ed as [Ed _]. destruct group; discriminate.
  - rewrite <- Ed. rewrite trim_left_app; auto; [apply plain_marks|].
    intros c r' ->. apply no_marks in HB. inversion HB. auto.
Qed.

Lemma number_formatter : forall pre group k post, lits_ok pre -> lits_ok post -> digits_ok k ->
  to_lower (number_code pre group k post) <> bs "general" /\
  exists ff, make_formatter (number_code pre group k post) = (ff, number_type k) /\
    forall m v, ff_eval m ff v =
      (s <- ff_eval m (number_ff (has_pct pre || has_pct post) group k) v ;; Ok (lits_show pre ++ s ++ lits_show post)).
Proof.
  intros pre group k post Hpre Hpost Hk. pose proof Hpre as [Fpre Apre]. pose proof Hpost as [Fpost Apost].
  pose proof (lits_bytes _ Fpre) as BA. pose proof (lits_bytes _ Fpost) as BB.
  set (A := concat (map lit_text pre)) in *. set (B := concat (map lit_text post)) in *.
  assert (HA : Forall (fun c => ~ In c (bs "Ee.,0#?;[*_")) A) by (eapply Forall_impl; [|exact BA]; cbv beta; tauto).
  assert (HB : Forall (fun c => ~ In c (bs "Ee.,0#?;[*_")) B) by (eapply Forall_impl; [|exact BB]; cbv beta; tauto).
  set (s := number_code pre group k post). assert (Es : s = A ++ digits_text group k ++ B) by reflexivity.
  assert (NB : forall c, In c (bs ";[*_") -> ~ In c s).
  { intros c Hc Q. rewrite Es in Q. rewrite !in_app_iff in Q. rewrite Forall_forall in HA, HB.
    pose proof (digits_bytes group k) as DB. rewrite Forall_forall in DB.
    destruct Q as [Q|[Q|Q]].
    - apply (HA c Q). cbv [bs In] in *; simpl in *; tauto.
    - apply DB in Q. cbv [digit_set bs In] in *; simpl in *. lia.
    - apply (HB c Q). cbv [bs In] in *; simpl in *; tauto. }
  split.
  { intros E. assert (Q : In 48 s).
    { rewrite Es. apply in_or_app. right. apply in_or_app. left. unfold digits_text. apply in_or_app. left. destruct group; cbv; tauto. }
    assert (In 48 (bs "general")) by (rewrite <- E; unfold to_lower; apply in_map_iff; exists 48; split; auto). cbv in H. lia. }
  assert (RB : rm_brackets s = s).
  { unfold rm_brackets. apply rm_delim_id; auto. apply NB. cbv [bs In]; simpl; tauto. }
  unfold make_formatter. rewrite RB.
  rewrite (containsb_not (bs ";") s 59); [|left; reflexivity|apply NB; cbv [bs In]; simpl; tauto].
  unfold make_section. rewrite RB.
  assert (DL : contains_any (bs "ymdhs") (rm_literals s) = false).
  { unfold rm_literals.
    assert (EP : s = concat (map raw (map lp pre ++ [(false, digits_text group k)] ++ map lp post))).
    { rewrite !map_app, !concat_app, !lits_raw. cbn [map concat raw fst snd]. rewrite app_nil_r. exact Es. }
    rewrite EP. rewrite rm_pieces; auto.
    - apply contains_any_not. rewrite map_app, concat_app, map_app, concat_app. cbn [map concat fst snd]. rewrite app_nil_r.
      assert (PL : forall l, Forall lit_ok l ->
        Forall (fun c => ~ In c (bs "ymdhs")) (concat (map (fun p : bool * gostr => if fst p then [] else snd p) (map lp l)))).
      { clear. induction l as [|a l IH]; intros H; [constructor|]. inversion H as [|? ? H1 H2]; subst. cbn [map concat]. apply Forall_app. split; auto.
        destruct a as [w|c|u|]; cbn [lp fst snd lit_text lit_ok] in *.
        - destruct H1 as [_ H1]. eapply Forall_impl; [|exact H1]. intros c [Q _] Hc. apply Q. cbv [bs In] in *; simpl in *; tauto.
        - destruct H1 as [[Q _] _]. constructor; [cbv; lia|]. constructor; [|constructor]. intros Hc. apply Q. cbv [bs In] in *; simpl in *; tauto.
        - constructor.
        - constructor; [cbv; lia|constructor]. }
      apply Forall_app. split; [apply PL; auto|]. apply Forall_app. split; [|apply PL; auto].
      eapply Forall_impl; [|apply digits_bytes]. cbv beta. intros c Hc. cbv [digit_set bs In] in *; simpl in *. lia.
    - apply Forall_app. split; [apply Forall_map; eapply Forall_impl; [|exact Fpre]; apply lp_ok|].
      apply Forall_app. split; [|apply Forall_map; eapply Forall_impl; [|exact Fpost]; apply lp_ok].
      constructor; [|constructor]. split; [apply digits_ne|]. intros Q. pose proof (digits_bytes group k) as DB. rewrite Forall_forall in DB.
      apply DB in Q. cbv [digit_set bs In] in Q; simpl in Q. lia. }
  rewrite DL.
  (* the code after the exponent is removed *)
  set (s' := A ++ plain_digits group k ++ B).
  assert (NE : forall l, Forall (fun c => ~ In c (bs "Ee.,0#?;[*_")) l -> Forall (fun c => is_e c = false) l).
  { intros l Hl. eapply Forall_impl; [|exact Hl]. cbv beta. intros c Hc. unfold is_e. destruct (Z.eqb_spec c 101), (Z.eqb_spec c 69); auto;
    subst; exfalso; apply Hc; cbv [bs In]; simpl; tauto. }
  assert (PE : Forall (fun c => is_e c = false) (plain_digits group k)).
  { eapply Forall_impl; [|apply plain_marks]. cbv beta. intros c Hc. unfold is_e. destruct (Z.eqb_spec c 101), (Z.eqb_spec c 69); auto; subst; discriminate. }
  assert (RE : rm_exp s = s').
  { unfold rm_exp. assert (G : forall n, (List.length s <= n)%nat -> rm_exp_fuel n s = s'); [|apply G; auto].
    intros n Hn. rewrite Es in *.
    assert (WB : forall n, (List.length B <= n)%nat -> rm_exp_fuel n B = B).
    { intros n0 Hn0. rewrite <- (app_nil_r B) at 1. rewrite rm_exp_word; [|rewrite app_nil_r; auto|apply NE; auto].
      destruct (n0 - List.length B)%nat; apply app_nil_r. }
    destruct k as [|p|p low minus z]; [..|].
    1, 2: unfold s'; rewrite !app_assoc in *; rewrite rm_exp_word; auto; [|apply Forall_app; split; [apply NE; auto|exact PE]]; f_equal; apply WB; rewrite !app_length in *; lia.
    unfold s'. assert (ED : digits_text group (Sci p low minus z) = plain_digits group (Sci p low minus z) ++ expo_text low minus z).
    { unfold plain_digits, digits_text. rewrite <- !app_assoc. reflexivity. }
    assert (EQ : A ++ digits_text group (Sci p low minus z) ++ B = (A ++ plain_digits group (Sci p low minus z)) ++ expo_text low minus z ++ B).
    { rewrite ED, <- !app_assoc. reflexivity. }
    rewrite EQ in *. rewrite (app_assoc A).
    rewrite rm_exp_word; auto; [|apply Forall_app; split; [apply NE; auto|exact PE]]. f_equal.
    rewrite !app_length in Hn. set (j := (n - List.length (A ++ plain_digits group (Sci p low minus z)))%nat).
    assert (Hj : (1 + List.length B <= j)%nat) by (unfold j; rewrite app_length; cbn [expo_text List.length] in Hn; lia).
    destruct j as [|j]; [lia|]. unfold expo_text. cbn [repeat app rm_exp_fuel].
    replace (is_e (if low then 101 else 69)) with true by (destruct low; reflexivity).
    cbn [trim_left]. replace (is_e (if minus then 45 else 43)) with false by (destruct minus; reflexivity).
    replace (((if minus then 45 else 43) =? 43) || ((if minus then 45 else 43) =? 45)) with true by (destruct minus; reflexivity).
    replace (trim_left (Z.eqb 48) (repeat 48 z ++ B)) with B; [apply WB; lia|].
    symmetry. clear - HB. induction z as [|z IH]; [cbn [repeat app]|cbn [repeat app trim_left]; change (48 =? 48) with true; exact IH].
    destruct B as [|x r]; [reflexivity|]. cbn [trim_left]. inversion HB as [|? ? HB1 _]; subst. destruct (Z.eqb_spec 48 x); auto.
    subst. exfalso. apply HB1. cbv [bs In]; simpl; tauto. }
  destruct (positions A B group k Hk HA HB) as (P1 & P2 & P3). fold s' in P1, P2, P3.
  assert (PC : containsb (bs "%") (remove_byte 44 s') = has_pct pre || has_pct post).
  { change (bs "%") with [37]. rewrite containsb_in. apply eq_true_iff_eq. rewrite orb_true_iff, !has_pct_in, existsb_exists.
    rewrite <- (lits_pct pre Fpre), <- (lits_pct post Fpost). fold A B. split.
    - intros (y & Hy & E). apply Z.eqb_eq in E. subst y. apply P3 in Hy; [|lia]. unfold s' in Hy. rewrite !in_app_iff in Hy.
      destruct Hy as [Hy|[Hy|Hy]]; auto. exfalso. pose proof (plain_marks group k) as M. rewrite Forall_forall in M. apply M in Hy. discriminate.
    - intros H. exists 37. split; [|reflexivity]. apply P3; [lia|]. unfold s'. rewrite !in_app_iff. tauto. }
  assert (CC : containsb (bs ",") s' = group).
  { change (bs ",") with [44]. rewrite containsb_in. unfold s'. rewrite !existsb_app.
    assert (Z0 : forall l, Forall (fun c => ~ In c (bs "Ee.,0#?;[*_")) l -> existsb (Z.eqb 44) l = false).
    { intros l Hl. apply not_true_is_false. intros E. apply existsb_exists in E as (y & Hy & E). apply Z.eqb_eq in E. subst y.
      rewrite Forall_forall in Hl. apply (Hl 44 Hy). cbv [bs In]; simpl; tauto. }
    rewrite (Z0 A), (Z0 B) by auto. rewrite orb_false_r. simpl orb. unfold plain_digits, digits_text. rewrite existsb_app.
    assert (R : forall p, existsb (Z.eqb 44) (repeat 48 p) = false).
    { intros p. apply not_true_is_false. intros E. apply existsb_exists in E as (y & Hy & E). apply repeat_spec in Hy. subst. discriminate. }
    destruct group; [reflexivity|]. destruct k as [|p|p low minus z]; [reflexivity| |]; rewrite existsb_app, R; reflexivity. }
  pose proof (sur_number A B group k HA HB) as SN. fold s' in SN.
  pose proof (clean_lits pre Hpre) as CA. pose proof (clean_lits post Hpost) as CB. fold A in CA. fold B in CB.
  assert (DOT : k <> Whole -> contains_any (bs ".Ee") s = true).
  { intros Hw. apply (contains_any_in _ _ 46); [cbv [bs In]; simpl; tauto|]. rewrite Es. apply in_or_app. right. apply in_or_app. left.
    unfold digits_text. destruct k; [congruence| |]; apply in_or_app; right; left; reflexivity. }
  assert (FIN : forall ff ct, ff = number_ff (has_pct pre || has_pct post) group k -> ct = number_type k -> exists ff',
    (let '(pre0, post0) := sur_split s' in
     match post0 with
     | None => if str_eqb (clean_text pre0) (bs "@") then (FIdent, StringCell) else (FStatic (clean_text pre0), StringCell)
     | Some post1 => if (0 <? zlen (clean_text pre0)) || (0 <? zlen post1) then (FSurround (clean_text pre0) ff (clean_text post1), ct) else (ff, ct)
     end) = (ff', number_type k) /\
    forall m v, ff_eval m ff' v =
      (s <- ff_eval m (number_ff (has_pct pre || has_pct post) group k) v ;; Ok (lits_show pre ++ s ++ lits_show post))).
  { intros ff ct -> ->. rewrite SN, CA, CB. destruct ((0 <? zlen (lits_show pre)) || (0 <? zlen B)) eqn:EZ.
    - eexists. split; [reflexivity|]. reflexivity.
    - eexists. split; [reflexivity|]. intros m v. apply orb_false_iff in EZ as [Z1 Z2].
      assert (L1 : lits_show pre = []). { destruct (lits_show pre) as [|z0 l0]; auto. rewrite zlen_cons in Z1. pose proof (zlen_nonneg _ l0). lia. }
      assert (L2 : B = []). { clear - Z2. destruct B as [|z0 l0]; auto. rewrite zlen_cons in Z2. pose proof (zlen_nonneg _ l0). lia. }
      assert (L3 : lits_show post = []) by (rewrite <- CB, L2; reflexivity).
      rewrite L1, L3. destruct (ff_eval m _ v) as [t| | |]; cbn [bind]; try reflexivity. simpl app. rewrite app_nil_r. reflexivity. }
  destruct k as [|p|p low minus z].
  - (* Whole *)
    assert (ND : contains_any (bs ".Ee") s = false).
    { apply contains_any_not. rewrite Es. apply Forall_app. split; [|apply Forall_app; split].
      - eapply Forall_impl; [|exact HA]. cbv beta. intros c Hc Q. apply Hc. cbv [bs In] in *; simpl in *; tauto.
      - destruct group; repeat constructor; cbv; lia.
      - eapply Forall_impl; [|exact HB]. cbv beta. intros c Hc Q. apply Hc. cbv [bs In] in *; simpl in *; tauto. }
    rewrite ND. change s with s'. cbv zeta. rewrite P1, PC, CC. apply FIN; reflexivity.
  - rewrite DOT by discriminate. cbv zeta. rewrite RE, P1, (P2 ltac:(discriminate)), PC, CC. cbn [decimals].
    replace (contains_any (bs "Ee") s) with false; [apply FIN; reflexivity|].
    symmetry. apply contains_any_not. rewrite Es. apply Forall_app. split; [|apply Forall_app; split].
    + eapply Forall_impl; [|exact HA]. cbv beta. intros c Hc Q. apply Hc. cbv [bs In] in *; simpl in *; tauto.
    + eapply Forall_impl; [|exact (plain_marks group (Fixed p))]. cbv beta. intros c Hc Q. cbv [bs In] in Q; simpl in Q.
      destruct Q as [<-|[<-|[]]]; discriminate.
    + eapply Forall_impl; [|exact HB]. cbv beta. intros c Hc Q. apply Hc. cbv [bs In] in *; simpl in *; tauto.
  - rewrite DOT by discriminate. cbv zeta. rewrite RE, P1, (P2 ltac:(discriminate)), PC, CC. cbn [decimals].
    replace (contains_any (bs "Ee") s) with true; [apply FIN; reflexivity|].
    symmetry. apply (contains_any_in _ _ (if low then 101 else 69)); [destruct low; cbv [bs In]; simpl; tauto|]. rewrite Es. apply in_or_app. right. apply in_or_app. left.
    unfold digits_text. apply in_or_app. right. apply in_or_app. right. apply in_or_app. right. left. reflexivity.
Qed.

(** * P_heap: property C95, cells do not share memory unless copied *)
From Verif Require Import GoBase L_base GoFloat M_value M_cell M_heap.
From Coq Require Import Lia ZifyBool ZifyNat Permutation.

(** ** what a program does if every variable holds a value of its own *)
Definition vget (vs : list (list goval)) (i : nat) : res (list goval) := match nth_error vs i with Some c => Ok c | None => Panic end.
Definition vstep (vars : list (list goval)) (o : cop) : res (list (list goval)) :=
  match o with
  | CNil => Ok (vars ++ [[]])
  | CNew l => Ok (vars ++ [l])
  | CPut i l => _ <- vget vars i ;; Ok (upd vars i l)
  | CClone i => c <- vget vars i ;; Ok (vars ++ [cell_clone c])
  | CFormat i f => c <- vget vars i ;; c' <- set_format_number c f ;; Ok (upd vars i c')
  | CURL i l => c <- vget vars i ;; c' <- cell_set_url c l ;; Ok (upd vars i c')
  | CSet i j v => c <- vget vars i ;; c' <- set_idx c (Z.of_nat j) v ;; Ok (upd vars i c')
  | CCopy i => c <- vget vars i ;; Ok (vars ++ [c])
  end.
Fixpoint vrun (vars : list (list goval)) (ops : list cop) : res (list (list goval)) :=
  match ops with [] => Ok vars | o :: ops => vars' <- vstep vars o ;; vrun vars' ops end.
(** cells come from NewCell or NewCellWithType, so have a value and a type; nothing is assigned from
    one variable to another *)
Definition plain_op (o : cop) : Prop := match o with CNew l | CPut _ l => (2 <= List.length l)%nat | CCopy _ => False | _ => True end.

(** ** the invariant *)
Definition addr (c : href) : list nat := match c with HNil => [] | HAt a _ => [a] end.
Definition wf1 (h : heap) (c : href) : Prop :=
  match c with HNil => True | HAt a n => (a < List.length h)%nat /\ (n <= List.length (arr h a))%nat /\ (n = 0%nat -> arr h a = []) /\ n <> 1%nat end.
Definition wf (s : hstate) : Prop := Forall (wf1 (fst s)) (snd s) /\ NoDup (flat_map addr (snd s)).
Definition reads (s : hstate) : list (list goval) := map (h_read (fst s)) (snd s).
(** an operation on a cell changes its array or makes a new one *)
Definition local (h : heap) (c : href) (h' : heap) (c' : href) : Prop :=
  (List.length h <= List.length h')%nat /\ (forall a, (a < List.length h)%nat -> ~ In a (addr c) -> arr h' a = arr h a) /\ wf1 h' c' /\ (addr c' = addr c \/ exists a, addr c' = [a] /\ (List.length h <= a)%nat).

Lemma arr_app : forall h v a, (a < List.length h)%nat -> arr (h ++ [v]) a = arr h a.
Proof. intros. unfold arr. apply app_nth1. assumption. Qed.
Lemma arr_new : forall h v, arr (h ++ [v]) (List.length h) = v.
Proof. intros. unfold arr. rewrite app_nth2, Nat.sub_diag by lia. reflexivity. Qed.
Lemma arr_upd : forall h a v b, (a < List.length h)%nat -> arr (upd h a v) b = if Nat.eqb a b then v else arr h b.
Proof.
  intros h. unfold arr. induction h as [|x h IH]; intros a v b L; cbn in L; [lia|]. destruct a, b; cbn [upd nth Nat.eqb]; try reflexivity. apply IH. lia.
Qed.
Lemma firstn_upd_out : forall A (l : list A) i n v, (n <= i)%nat -> firstn n (upd l i v) = firstn n l.
Proof. intros A l. induction l as [|x l IH]; intros i n v L; [reflexivity|]. destruct n; [reflexivity|]. destruct i; [lia|]. cbn [upd firstn]. rewrite IH by lia. reflexivity. Qed.
Lemma firstn_upd_in : forall A (l : list A) i n v, firstn n (upd l i v) = upd (firstn n l) i v.
Proof. intros A l. induction l as [|x l IH]; intros i n v; [destruct n; reflexivity|]. destruct n; [reflexivity|]. destruct i; [reflexivity|]. cbn [upd firstn]. rewrite IH. reflexivity. Qed.
Lemma read_len : forall h c, wf1 h c -> List.length (h_read h c) = h_len c.
Proof. intros h [|a n] W; [reflexivity|]. destruct W as (_ & W & _). cbn [h_read h_len]. rewrite firstn_length. lia. Qed.
Lemma alloc_ok : forall h l extra c, (2 <= List.length l)%nat \/ (l = [] /\ extra = 0%nat) -> (let (h', c') := h_alloc h l extra in local h c h' c' /\ h_read h' c' = l).
Proof.
  intros h l extra c L. unfold h_alloc. split; [|cbn [h_read]; rewrite arr_new, firstn_app, firstn_all, Nat.sub_diag; cbn [firstn]; apply app_nil_r].
  split; [rewrite app_length; lia|]. split; [intros a La _; apply arr_app; exact La|]. split; [|right; exists (List.length h); split; [reflexivity|lia]].
  split; [rewrite app_length; cbn; lia|]. rewrite arr_new, app_length. split; [lia|]. split; [intros E; destruct L as [L|(-> & ->)]; [lia|reflexivity]|]. destruct L as [L|(-> & ->)]; cbn; lia.
Qed.
Lemma set_ok : forall h c i v, wf1 h c -> match h_set h c i v with Ok h' => local h c h' c /\ (i < h_len c)%nat /\ h_read h' c = upd (h_read h c) i v | Panic => (h_len c <= i)%nat | _ => False end.
Proof.
  intros h [|a n] i v W; cbn [h_set h_len]; [lia|]. destruct W as (W1 & W2 & W3 & W4). destruct (Nat.ltb_spec i n) as [L|L]; [|exact L].
  assert (A : arr (upd h a (upd (arr h a) i v)) a = upd (arr h a) i v) by (rewrite arr_upd by exact W1; rewrite Nat.eqb_refl; reflexivity).
  split; [|split; [exact L|cbn [h_read]; rewrite A; apply firstn_upd_in]].
  split; [rewrite upd_length; lia|]. split; [intros b Lb Nb; rewrite arr_upd by exact W1; destruct (Nat.eqb_spec a b) as [->|]; [cbn in Nb; tauto|reflexivity]|]. split; [|left; reflexivity].
  split; [rewrite upd_length; exact W1|]. rewrite A, upd_length. split; [exact W2|]. split; [intros ->; lia|exact W4].
Qed.
Lemma append_ok : forall grow h c vs, wf1 h c -> (2 <= h_len c)%nat -> (let (h', c') := h_append grow h c vs in local h c h' c' /\ h_read h' c' = h_read h c ++ vs).
Proof.
  intros grow h [|a n] vs W L; cbn [h_len] in L; [lia|]. destruct W as (W1 & W2 & W3 & W4). cbn [h_append]. destruct (Nat.leb_spec (n + List.length vs) (List.length (arr h a))) as [C|C].
  - set (v := firstn n (arr h a) ++ vs ++ skipn (n + List.length vs) (arr h a)). assert (Lv : List.length v = List.length (arr h a)) by (unfold v; rewrite !app_length, firstn_length, skipn_length; lia).
    assert (A : arr (upd h a v) a = v) by (rewrite arr_upd by exact W1; rewrite Nat.eqb_refl; reflexivity).
    split.
    + split; [rewrite upd_length; lia|]. split; [intros b Lb Nb; rewrite arr_upd by exact W1; destruct (Nat.eqb_spec a b) as [->|]; [cbn in Nb; tauto|reflexivity]|]. split; [|left; reflexivity].
      split; [rewrite upd_length; exact W1|]. rewrite A, Lv. split; [exact C|]. split; lia.
    + cbn [h_read]. rewrite A. unfold v. rewrite app_assoc. assert (E : (n + List.length vs)%nat = List.length (firstn n (arr h a) ++ vs)) by (rewrite app_length, firstn_length; lia). rewrite E at 1. rewrite firstn_app, firstn_all, Nat.sub_diag. cbn [firstn]. apply app_nil_r.
  - pose proof (alloc_ok h (firstn n (arr h a) ++ vs) (grow h (HAt a n)) (HAt a n)) as H. rewrite app_length, firstn_length in H. specialize (H ltac:(left; lia)). exact H.
Qed.
Lemma local_trans : forall h c h1 c1 h2 c2, local h c h1 c1 -> addr c1 = addr c -> local h1 c1 h2 c2 -> local h c h2 c2.
Proof.
  intros h c h1 c1 h2 c2 (A1 & A2 & A3 & A4) E (B1 & B2 & B3 & B4). split; [lia|]. split; [intros a L N; rewrite B2 by (rewrite ?E; (lia || assumption)); apply A2; assumption|]. split; [exact B3|].
  destruct B4 as [B4|(a & B4 & B5)]; [left; congruence|right; exists a; split; [exact B4|lia]].
Qed.

(** ** the operations of one cell *)
Definition agrees (h : heap) (c : href) (r : res (heap * href)) (v : res (list goval)) : Prop :=
  match r, v with
  | Ok (h', c'), Ok l => local h c h' c' /\ h_read h' c' = l
  | Panic, Panic => True
  | _, _ => False
  end.
Lemma set_idx_nat : forall (l : list goval) i v, set_idx l (Z.of_nat i) v = if (i <? List.length l)%nat then Ok (upd l i v) else Panic.
Proof.
  intros l i v. unfold set_idx, zlen. rewrite Nat2Z.id. destruct (Nat.ltb_spec i (List.length l)).
  - replace ((0 <=? Z.of_nat i) && (Z.of_nat i <? Z.of_nat (List.length l))) with true by lia. reflexivity.
  - replace ((0 <=? Z.of_nat i) && (Z.of_nat i <? Z.of_nat (List.length l))) with false by lia. reflexivity.
Qed.
Lemma url_ok : forall grow h c link, wf1 h c -> agrees h c (h_set_url grow h c link) (cell_set_url (h_read h c) link).
Proof.
  intros grow h c link W. unfold h_set_url, cell_set_url. change 1 with (Z.of_nat 1) at 1. rewrite set_idx_nat, (read_len _ _ W). pose proof (set_ok h c 1 (GCType HyperlinkStringCell) W) as S. destruct (h_set h c 1 (GCType HyperlinkStringCell)) as [h1|e| |]; try contradiction; cbn [bind].
  - destruct S as (S1 & S2 & S3). destruct (Nat.ltb_spec 1 (h_len c)); [|lia]. cbn [bind]. rewrite <- S3. assert (W' : wf1 h1 c) by (destruct S1 as (_ & _ & S1 & _); exact S1). assert (L2 : (2 <= h_len c)%nat) by lia.
    unfold zlen. rewrite (read_len _ _ W'). destruct (Nat.eqb_spec (h_len c) 2) as [E|E].
    + replace (Z.of_nat (h_len c) =? 2) with true by lia. pose proof (append_ok grow h1 c [GInt KUint16 0; GStr link] W' L2) as A. destruct (h_append grow h1 c [GInt KUint16 0; GStr link]) as (h2, c2). destruct A as (A1 & A2). split; [exact (local_trans _ _ _ _ _ _ S1 eq_refl A1)|exact A2].
    + replace (Z.of_nat (h_len c) =? 2) with false by lia. pose proof (append_ok grow h1 c [GStr link] W' L2) as A. destruct (h_append grow h1 c [GStr link]) as (h2, c2). destruct A as (A1 & A2). split; [exact (local_trans _ _ _ _ _ _ S1 eq_refl A1)|exact A2].
  - destruct (Nat.ltb_spec 1 (h_len c)); [lia|]. exact I.
Qed.
Lemma local_refl : forall h c, wf1 h c -> local h c h c.
Proof. intros h c W. split; [lia|]. split; [auto|]. split; [exact W|left; reflexivity]. Qed.
Lemma format_ok : forall grow h c f, wf1 h c -> agrees h c (h_set_format grow h c f) (set_format_number (h_read h c) f).
Proof.
  intros grow h c f W. unfold h_set_format, set_format_number. unfold zlen. rewrite (read_len _ _ W). destruct (f =? 0).
  - destruct c as [|a n]; cbn [h_len]; [exact I|]. pose proof W as (W1 & W2 & W3 & W4). destruct (Nat.leb_spec 2 (List.length (arr h a))) as [L|L].
    + destruct (Nat.eq_dec n 0) as [->|N]; [rewrite (W3 eq_refl) in L; cbn in L; lia|]. replace (Z.of_nat n <? 2) with false by lia. split.
      * split; [lia|]. split; [auto|]. split; [|left; reflexivity]. split; [exact W1|]. split; [exact L|]. split; lia.
      * cbn [h_read]. unfold ztake. change (Z.to_nat 2) with 2%nat. rewrite firstn_firstn. replace (Nat.min 2 n) with 2%nat by lia. reflexivity.
    + replace (Z.of_nat n <? 2) with true by lia. exact I.
  - destruct (Nat.eqb_spec (h_len c) 2) as [E|E].
    + replace (Z.of_nat (h_len c) =? 2) with true by lia. pose proof (append_ok grow h c [GInt KUint16 f] W ltac:(lia)) as A. destruct (h_append grow h c [GInt KUint16 f]) as (h2, c2). exact A.
    + replace (Z.of_nat (h_len c) =? 2) with false by lia. change 2 with (Z.of_nat 2). rewrite set_idx_nat, (read_len _ _ W). pose proof (set_ok h c 2 (GInt KUint16 f) W) as S. destruct (h_set h c 2 (GInt KUint16 f)) as [h1|e| |]; try contradiction; cbn [bind].
      * destruct S as (S1 & S2 & S3). destruct (Nat.ltb_spec 2 (h_len c)); [|lia]. split; [exact S1|exact S3].
      * destruct (Nat.ltb_spec 2 (h_len c)); [lia|]. exact I.
Qed.

(** ** all variables *)
Lemma get_ok : forall s i, wf s -> match hget (snd s) i, vget (reads s) i with Ok c, Ok l => nth_error (snd s) i = Some c /\ wf1 (fst s) c /\ l = h_read (fst s) c | Panic, Panic => True | _, _ => False end.
Proof.
  intros (h, vars) i (W & _). unfold hget, vget, reads. cbn [fst snd] in *. rewrite nth_error_map. destruct (nth_error vars i) as [c|] eqn:E; cbn [option_map]; [|exact I]. split; [reflexivity|]. split; [|reflexivity]. rewrite Forall_forall in W. apply W. exact (nth_error_In _ _ E).
Qed.
Lemma read_other : forall h c h' c' d, local h c h' c' -> wf1 h d -> (forall a, In a (addr d) -> ~ In a (addr c)) -> h_read h' d = h_read h d /\ wf1 h' d.
Proof.
  intros h c h' c' d (A1 & A2 & _) W N. destruct d as [|a n]; [split; [reflexivity|exact I]|]. destruct W as (W1 & W2 & W3 & W4). assert (E : arr h' a = arr h a) by (apply A2; [exact W1|apply N; left; reflexivity]). split; [cbn [h_read]; rewrite E; reflexivity|]. split; [lia|]. rewrite E. auto.
Qed.
Lemma upd_split : forall A (l : list A) i x c, nth_error l i = Some c -> exists pre post, l = pre ++ c :: post /\ upd l i x = pre ++ x :: post /\ List.length pre = i.
Proof.
  intros A l i x c E. destruct (nth_error_split _ _ E) as (pre & post & -> & L). exists pre, post. split; [reflexivity|]. split; [|exact L]. subst i. clear E. induction pre as [|y pre IH]; [reflexivity|]. cbn [List.length app upd]. rewrite IH. reflexivity.
Qed.
Lemma fm_addr : forall pre c post, flat_map addr (pre ++ c :: post) = flat_map addr pre ++ addr c ++ flat_map addr post.
Proof. intros. rewrite flat_map_app. reflexivity. Qed.
Lemma nodup_parts : forall (a b c : list nat), NoDup (a ++ b ++ c) <-> NoDup (a ++ c) /\ NoDup b /\ (forall x, In x b -> ~ In x (a ++ c)).
Proof.
  intros a b c. assert (P : Permutation (a ++ b ++ c) (b ++ a ++ c)) by (apply Permutation_app_swap_app). split.
  - intros N. apply (Permutation_NoDup P) in N. clear P. induction b as [|x b IH]; [split; [exact N|split; [constructor|intros ? []]]|]. cbn [app] in N. inversion N as [|? ? N1 N2]; subst. destruct (IH N2) as (A1 & A2 & A3). split; [exact A1|]. rewrite in_app_iff in N1. split; [constructor; tauto|]. intros y [<-|I]; [tauto|auto].
  - intros (A1 & A2 & A3). apply (Permutation_NoDup (Permutation_sym P)). clear P. induction A2 as [|x b I N IH]; [exact A1|]. cbn [app]. constructor; [rewrite in_app_iff; intros [Q|Q]; [contradiction|exact (A3 x (or_introl eq_refl) Q)]|]. apply IH. intros y Y. apply A3. right. exact Y.
Qed.
Lemma addr_lt : forall h vars a, Forall (wf1 h) vars -> In a (flat_map addr vars) -> (a < List.length h)%nat.
Proof. intros h vars a W I. apply in_flat_map in I. destruct I as (d & D & I). rewrite Forall_forall in W. specialize (W d D). destruct d as [|b n]; [destruct I|]. destruct I as [<-|[]]. exact (proj1 W). Qed.
Lemma addr_nodup : forall c, NoDup (addr c).
Proof. intros [|a n]; cbn; repeat constructor; intros []. Qed.
(** replacing one variable *)
Lemma replace_ok : forall h vars i c h' c' l, wf (h, vars) -> nth_error vars i = Some c -> local h c h' c' -> h_read h' c' = l -> wf (h', upd vars i c') /\ reads (h', upd vars i c') = upd (reads (h, vars)) i l.
Proof.
  intros h vars i c h' c' l (W & N) E L R. destruct (upd_split _ vars i c' c E) as (pre & post & -> & U & Li). unfold wf, reads. cbn [fst snd] in *. rewrite U. clear U E. rewrite fm_addr in N. apply nodup_parts in N. destruct N as (N1 & N2 & N3).
  apply Forall_app in W. destruct W as (W1 & W2). inversion W2 as [|? ? Wc W3]; subst. rewrite Forall_forall in W1, W3.
  assert (O : forall d, In d pre \/ In d post -> h_read h' d = h_read h d /\ wf1 h' d).
  { intros d D. apply (read_other h c h' c'); [exact L|destruct D as [D|D]; auto|]. intros a A C. apply (N3 a C). apply in_app_iff. destruct D as [D|D]; [left|right]; apply in_flat_map; eauto. }
  split.
  - split; [apply Forall_app; split; [apply Forall_forall; intros d D; apply O; auto|constructor; [destruct L as (_ & _ & L & _); exact L|apply Forall_forall; intros d D; apply O; auto]]|].
    rewrite fm_addr. apply nodup_parts. split; [exact N1|]. split; [apply addr_nodup|]. intros a A. destruct L as (_ & _ & _ & [L|(b & L & Lb)]); [rewrite L in A; exact (N3 a A)|]. rewrite L in A. destruct A as [<-|[]]. intros C. assert (b < List.length h)%nat; [|lia]. apply in_app_iff in C. destruct C as [C|C]; [apply (addr_lt h pre)|apply (addr_lt h post)]; auto; apply Forall_forall; auto.
  - rewrite !map_app. cbn [map]. assert (M : forall q, (forall d, In d q -> In d pre \/ In d post) -> map (h_read h') q = map (h_read h) q) by (intros q Q; apply map_ext_in; intros d D; apply O; auto).
    rewrite (M pre), (M post) by auto. generalize (map (h_read h) post) (h_read h c). intros p x. clear. induction pre as [|y pre IH]; [reflexivity|]. cbn [map List.length app upd]. rewrite IH. reflexivity.
Qed.
(** a new variable *)
Lemma push_ok : forall h vars h' c' l, wf (h, vars) -> local h HNil h' c' -> h_read h' c' = l -> wf (h', vars ++ [c']) /\ reads (h', vars ++ [c']) = reads (h, vars) ++ [l].
Proof.
  intros h vars h' c' l (W & N) L R. unfold wf, reads. cbn [fst snd] in *. assert (O : forall d, In d vars -> h_read h' d = h_read h d /\ wf1 h' d) by (intros d D; apply (read_other h HNil h' c'); [exact L|rewrite Forall_forall in W; auto|intros a _ []]).
  split; [split|].
  - apply Forall_app. split; [apply Forall_forall; intros d D; apply O; exact D|constructor; [destruct L as (_ & _ & L & _); exact L|constructor]].
  - rewrite flat_map_app. cbn [flat_map]. rewrite app_nil_r. pose proof (proj2 (nodup_parts (flat_map addr vars) (addr c') [])) as Q. rewrite !app_nil_r in Q. apply Q. split; [exact N|]. split; [apply addr_nodup|]. intros a A C. apply (addr_lt h) in C; [|exact W]. destruct L as (_ & _ & _ & [L|(b & L & Lb)]); rewrite L in A; [destruct A|]. destruct A as [<-|[]]. lia.
  - rewrite map_app. cbn [map]. rewrite R. f_equal. apply map_ext_in. intros d D. apply O. exact D.
Qed.
Definition same (r : res hstate) (v : res (list (list goval))) : Prop :=
  match r, v with Ok s, Ok l => wf s /\ reads s = l | Panic, Panic => True | _, _ => False end.
Lemma step_ok : forall grow s o, wf s -> plain_op o -> same (hstep grow s o) (vstep (reads s) o).
Proof.
  intros grow (h, vars) o W P. destruct o as [|l|i l|i|i f|i l|i j v|i]; cbn [hstep vstep plain_op] in *.
  - apply (push_ok h vars h HNil []); [exact W| |reflexivity]. apply local_refl. exact I.
  - pose proof (alloc_ok h l (grow h HNil) HNil (or_introl P)) as A. destruct (h_alloc h l (grow h HNil)) as (h', c'). destruct A as (A1 & A2). exact (push_ok h vars h' c' l W A1 A2).
  - pose proof (get_ok (h, vars) i W) as G. cbn [fst snd] in G. destruct (hget vars i) as [c|e| |]; destruct (vget (reads (h, vars)) i) as [x|e'| |]; try contradiction; cbn [bind]; [|exact I]. destruct G as (G1 & G2 & _).
    pose proof (alloc_ok h l (grow h HNil) c (or_introl P)) as A. destruct (h_alloc h l (grow h HNil)) as (h', c'). destruct A as (A1 & A2). exact (replace_ok h vars i c h' c' l W G1 A1 A2).
  - pose proof (get_ok (h, vars) i W) as G. cbn [fst snd] in G. destruct (hget vars i) as [c|e| |]; destruct (vget (reads (h, vars)) i) as [x|e'| |]; try contradiction; cbn [bind]; [|exact I]. destruct G as (G1 & G2 & ->).
    unfold h_clone, cell_clone. rewrite map_id. assert (LL : (2 <= List.length (h_read h c))%nat \/ (h_read h c = [] /\ 0%nat = 0%nat)).
    { rewrite (read_len _ _ G2). destruct c as [|a n]; [right; split; reflexivity|]. destruct G2 as (_ & _ & G3 & G4). cbn [h_len h_read]. destruct n as [|[|n]]; [right; split; reflexivity|congruence|left; lia]. }
    pose proof (alloc_ok h (h_read h c) 0 HNil LL) as A. destruct (h_alloc h (h_read h c) 0) as (h', c'). destruct A as (A1 & A2). exact (push_ok h vars h' c' _ W A1 A2).
  - pose proof (get_ok (h, vars) i W) as G. cbn [fst snd] in G. destruct (hget vars i) as [c|e| |]; destruct (vget (reads (h, vars)) i) as [x|e'| |]; try contradiction; cbn [bind]; [|exact I]. destruct G as (G1 & G2 & ->).
    pose proof (format_ok grow h c f G2) as A. unfold agrees in A. destruct (h_set_format grow h c f) as [(h', c')|e| |]; destruct (set_format_number (h_read h c) f) as [x|e'| |]; try contradiction; cbn [bind]; [|exact I]. destruct A as (A1 & A2). exact (replace_ok h vars i c h' c' _ W G1 A1 A2).
  - pose proof (get_ok (h, vars) i W) as G. cbn [fst snd] in G. destruct (hget vars i) as [c|e| |]; destruct (vget (reads (h, vars)) i) as [x|e'| |]; try contradiction; cbn [bind]; [|exact I]. destruct G as (G1 & G2 & ->).
    pose proof (url_ok grow h c l G2) as A. unfold agrees in A. destruct (h_set_url grow h c l) as [(h', c')|e| |]; destruct (cell_set_url (h_read h c) l) as [x|e'| |]; try contradiction; cbn [bind]; [|exact I]. destruct A as (A1 & A2). exact (replace_ok h vars i c h' c' _ W G1 A1 A2).
  - pose proof (get_ok (h, vars) i W) as G. cbn [fst snd] in G. destruct (hget vars i) as [c|e| |]; destruct (vget (reads (h, vars)) i) as [x|e'| |]; try contradiction; cbn [bind]; [|exact I]. destruct G as (G1 & G2 & ->).
    rewrite set_idx_nat, (read_len _ _ G2). pose proof (set_ok h c j v G2) as A. destruct (h_set h c j v) as [h'|e| |]; try contradiction; cbn [bind].
    + destruct A as (A1 & A2 & A3). destruct (Nat.ltb_spec j (h_len c)); [|lia]. cbn [bind]. pose proof (replace_ok h vars i c h' c _ W G1 A1 A3) as Q. assert (U : upd vars i c = vars) by (destruct (upd_split _ vars i c c G1) as (pre & post & -> & U & _); exact U). rewrite U in Q. exact Q.
    + destruct (Nat.ltb_spec j (h_len c)); [lia|]. exact I.
  - contradiction.
Qed.
Lemma run_ok : forall grow ops s, wf s -> Forall plain_op ops -> same (hrun grow s ops) (vrun (reads s) ops).
Proof.
  intros grow ops. induction ops as [|o ops IH]; intros s W F; [split; [exact W|reflexivity]|]. inversion F as [|? ? P F']; subst. cbn [hrun vrun]. pose proof (step_ok grow s o W P) as S. unfold same in S. destruct (hstep grow s o) as [s'|e| |]; destruct (vstep (reads s) o) as [l|e'| |]; try contradiction; cbn [bind]; [|exact I]. destruct S as (S1 & <-). exact (IH s' S1 F').
Qed.
Lemma wf_nil : wf ([], []).
Proof. split; constructor. Qed.

(** ** C95 *)
(** Whatever cells a program makes, clones, sets and puts in the place of others, and whatever rule
    append allocates by, every variable reads as if it held a value of its own, as in M_cell and
    M_sheet. *)
Theorem C95_values : forall grow ops, Forall plain_op ops ->
  match hrun grow ([], []) ops, vrun [] ops with Ok s, Ok l => reads s = l | Panic, Panic => True | _, _ => False end.
Proof.
  intros grow ops F. pose proof (run_ok grow ops ([], []) wf_nil F) as S. cbn [reads map fst snd] in S. unfold same in S. destruct (hrun grow ([], []) ops); destruct (vrun [] ops); try contradiction; [tauto|exact I].
Qed.

(** the variable an operation works on *)
Definition target (o : cop) : option nat := match o with CPut i _ | CFormat i _ | CURL i _ | CSet i _ _ => Some i | _ => None end.
Lemma vstep_frame : forall vars o vars' j, vstep vars o = Ok vars' -> (j < List.length vars)%nat -> target o <> Some j -> nth_error vars' j = nth_error vars j /\ (List.length vars <= List.length vars')%nat.
Proof.
  intros vars o vars' j E L T. assert (U : forall i x, Some i <> Some j -> nth_error (upd vars i x) j = nth_error vars j /\ (List.length vars <= List.length (upd vars i x))%nat) by (intros i x N; split; [apply nth_error_upd_other; congruence|rewrite upd_length; lia]).
  assert (A : forall x, nth_error (vars ++ [x]) j = nth_error vars j /\ (List.length vars <= List.length (vars ++ [x]))%nat) by (intros x; split; [apply nth_error_app1; exact L|rewrite app_length; lia]).
  destruct o as [|l|i l|i|i f|i l|i k v|i]; cbn [vstep target] in *.
  - injection E as <-. apply A.
  - injection E as <-. apply A.
  - destruct (vget vars i); cbn [bind] in E; try discriminate. injection E as <-. apply U. exact T.
  - destruct (vget vars i); cbn [bind] in E; try discriminate. injection E as <-. apply A.
  - destruct (vget vars i) as [c|e| |]; cbn [bind] in E; try discriminate. destruct (set_format_number c f); cbn [bind] in E; try discriminate. injection E as <-. apply U. exact T.
  - destruct (vget vars i) as [c|e| |]; cbn [bind] in E; try discriminate. destruct (cell_set_url c l); cbn [bind] in E; try discriminate. injection E as <-. apply U. exact T.
  - destruct (vget vars i) as [c|e| |]; cbn [bind] in E; try discriminate. destruct (set_idx c (Z.of_nat k) v); cbn [bind] in E; try discriminate. injection E as <-. apply U. exact T.
  - destruct (vget vars i); cbn [bind] in E; try discriminate. injection E as <-. apply A.
Qed.
Lemma vrun_frame : forall ops vars vars' j, vrun vars ops = Ok vars' -> (j < List.length vars)%nat -> Forall (fun o => target o <> Some j) ops -> nth_error vars' j = nth_error vars j.
Proof.
  induction ops as [|o ops IH]; intros vars vars' j E L F; cbn [vrun] in E; [injection E as <-; reflexivity|]. inversion F; subst. destruct (vstep vars o) as [v|e| |] eqn:S; cbn [bind] in E; try discriminate. destruct (vstep_frame _ _ _ _ S L ltac:(assumption)) as (A & B). rewrite <- A. apply (IH v vars' j E); [lia|assumption].
Qed.
Lemma hrun_app : forall grow a b s, hrun grow s (a ++ b) = bind (hrun grow s a) (fun s' => hrun grow s' b).
Proof. intros grow a. induction a as [|o a IH]; intros b s; [reflexivity|]. cbn [app hrun]. destruct (hstep grow s o); cbn [bind]; auto. Qed.
(** Operations on other variables leave a variable as it is: a clone is independent of its original,
    both ways, and so is every cell of a sheet of every other. *)
Theorem C95_frame : forall grow ops1 ops2 s1 s2 j, Forall plain_op (ops1 ++ ops2) -> hrun grow ([], []) ops1 = Ok s1 -> hrun grow s1 ops2 = Ok s2 ->
  (j < List.length (reads s1))%nat -> Forall (fun o => target o <> Some j) ops2 -> nth_error (reads s2) j = nth_error (reads s1) j.
Proof.
  intros grow ops1 ops2 s1 s2 j F E1 E2 L T. apply Forall_app in F. destruct F as (F1 & F2). pose proof (run_ok grow ops1 ([], []) wf_nil F1) as S1. rewrite E1 in S1. unfold same in S1. destruct (vrun (reads ([], [])) ops1); try contradiction. destruct S1 as (W1 & _).
  pose proof (run_ok grow ops2 s1 W1 F2) as S2. rewrite E2 in S2. unfold same in S2. destruct (vrun (reads s1) ops2) as [l|e| |] eqn:V; try contradiction. destruct S2 as (_ & <-). exact (vrun_frame _ _ _ _ V L T).
Qed.
(** Raw: the row's cells are cloned; each clone reads as its original, and whatever is done to the
    clones the sheet is as before. *)
Theorem C95_raw : forall grow ops1 row ops2 s1 s2, Forall plain_op (ops1 ++ ops2) -> hrun grow ([], []) ops1 = Ok s1 ->
  Forall (fun i => (i < List.length (snd s1))%nat) row ->
  Forall (fun o => forall i, target o = Some i -> (List.length (snd s1) <= i)%nat) ops2 ->
  exists s, hrun grow s1 (map CClone row) = Ok s /\ reads s = reads s1 ++ map (fun i => nth i (reads s1) []) row /\
    (hrun grow s ops2 = Ok s2 -> firstn (List.length (snd s1)) (reads s2) = reads s1).
Proof.
  intros grow ops1 row ops2 s1 s2 F E1 R T. pose proof F as F0. apply Forall_app in F. destruct F as (F1 & F2). pose proof (run_ok grow ops1 ([], []) wf_nil F1) as S1. rewrite E1 in S1. unfold same in S1. destruct (vrun (reads ([], [])) ops1) as [l1|e| |]; try contradiction. destruct S1 as (W1 & _).
  assert (LR : List.length (reads s1) = List.length (snd s1)) by (unfold reads; apply map_length).
  assert (FC : Forall plain_op (map CClone row)) by (apply Forall_forall; intros o O; apply in_map_iff in O; destruct O as (i & <- & _); exact I).
  pose proof (run_ok grow (map CClone row) s1 W1 FC) as S2.
  assert (V : vrun (reads s1) (map CClone row) = Ok (reads s1 ++ map (fun i => nth i (reads s1) []) row)).
  { clear S2 FC. rewrite <- LR in R. assert (K : forall r acc, Forall (fun i => (i < List.length (reads s1))%nat) r -> vrun (reads s1 ++ acc) (map CClone r) = Ok ((reads s1 ++ acc) ++ map (fun i => nth i (reads s1) []) r)).
    { clear R. induction r as [|i q IH]; intros acc R; [cbn [map vrun]; rewrite app_nil_r; reflexivity|]. inversion R as [|? ? Ri R']; subst. cbn [map vrun vstep]. unfold vget. rewrite nth_error_app1 by exact Ri. rewrite (nth_error_nth' (reads s1) [] Ri). cbn [bind]. unfold cell_clone. rewrite map_id. rewrite <- app_assoc. rewrite IH by exact R'. rewrite <- !app_assoc. reflexivity. }
    specialize (K row [] R). rewrite app_nil_r in K. exact K. }
  rewrite V in S2. unfold same in S2. destruct (hrun grow s1 (map CClone row)) as [s|e| |] eqn:E2; try contradiction. destruct S2 as (W2 & RS). exists s. split; [reflexivity|]. split; [exact RS|]. intros E3.
  pose proof (run_ok grow ops2 s W2 F2) as S3. rewrite E3 in S3. unfold same in S3. destruct (vrun (reads s) ops2) as [l|e| |] eqn:V2; try contradiction. destruct S3 as (_ & S3).
  assert (Fr : forall j, (j < List.length (snd s1))%nat -> nth_error (reads s2) j = nth_error (reads s1) j).
  { intros j L. rewrite S3, (vrun_frame _ _ _ j V2), RS, nth_error_app1; [reflexivity|lia|rewrite RS, app_length; lia|]. apply Forall_forall. intros o O C. rewrite Forall_forall in T. specialize (T o O j C). lia. }
  rewrite <- LR in Fr |- *. generalize (reads s2) Fr. generalize (reads s1). clear. intros a. induction a as [|x a IH]; intros b F; [reflexivity|]. pose proof (F 0%nat ltac:(cbn; lia)) as F0. destruct b as [|y b]; [discriminate|]. cbn in F0. injection F0 as ->. cbn [List.length firstn]. f_equal. apply IH. intros j L. exact (F (S j) ltac:(cbn; lia)).
Qed.
(** Assigning a cell to another variable is no copy: setting the format of the copy changes the
    original's as soon as there is one, and otherwise what is shared depends on the capacity. *)
Theorem C95_assignment_refuted : forall grow v t f g, f <> 0 ->
  exists s, hrun grow ([], []) [CNew [v; t; GInt KUint16 g]; CCopy 0; CFormat 1 f] = Ok s /\ reads s = [[v; t; GInt KUint16 f]; [v; t; GInt KUint16 f]].
Proof.
  intros grow v t f g N. assert (E : (f =? 0) = false) by lia. cbn. unfold h_set_format. rewrite E. cbn. eexists. split; reflexivity.
Qed.
Theorem C95_capacity_refuted : forall v w t f, f <> 0 ->
  let ops := [CNew [v; t]; CCopy 0; CFormat 1 f; CSet 1 0 w] in
  (exists s, hrun (fun _ _ => 0%nat) ([], []) ops = Ok s /\ reads s = [[v; t]; [w; t; GInt KUint16 f]]) /\
  (exists s, hrun (fun _ _ => 1%nat) ([], []) ops = Ok s /\ reads s = [[w; t]; [w; t; GInt KUint16 f]]).
Proof.
  intros v w t f N ops. unfold ops. assert (E : (f =? 0) = false) by lia. split; cbn; unfold h_set_format; rewrite E; cbn; eexists; split; reflexivity.
Qed.

(** ** rows *)
Definition no_write (o : rop) : bool := match o with RWrite _ _ _ => false | _ => true end.
(** what a sheet's Strings returns is the caller's: whatever is written into the rows returned, later
    calls return what they would have *)
Theorem C95_strings_fresh : forall texts ops outs, sheet_run (mkHR texts 0 []) ops = Ok outs -> sheet_run (mkHR texts 0 []) (filter no_write ops) = Ok outs.
Proof.
  intros texts ops. assert (K : forall ops it v1 v2 outs, sheet_run (mkHR texts it v1) ops = Ok outs -> sheet_run (mkHR texts it v2) (filter no_write ops) = Ok outs).
  { clear ops. induction ops as [|[| |v j x] ops IH]; intros it v1 v2 outs E; cbn [sheet_run filter no_write hr_texts hr_iter hr_vars] in *; [exact E|apply (IH _ v1); exact E| |].
    - destruct (idx texts (it - 1)) as [row|e| |]; cbn [bind] in *; try discriminate. destruct (sheet_run (mkHR texts it (v1 ++ [row])) ops) as [o|e| |] eqn:R; cbn [bind] in E; try discriminate. rewrite (IH _ _ (v2 ++ [row]) _ R). exact E.
    - destruct (idx v1 v) as [row|e| |]; cbn [bind] in E; try discriminate. destruct (set_idx row j x) as [row'|e| |]; cbn [bind] in E; try discriminate. destruct (set_idx v1 v row') as [v1'|e| |]; cbn [bind] in E; try discriminate. apply (IH _ v1'). exact E. }
  intros outs E. exact (K ops 0 [] [] outs E).
Qed.
(** each row is read at most once: Strings is called at most once after each Next *)
Fixpoint once (fresh : bool) (ops : list rop) : Prop :=
  match ops with
  | [] => True
  | RNext :: ops => once true ops
  | RStrings :: ops => fresh = true /\ once false ops
  | RWrite _ _ _ :: ops => once fresh ops
  end.
Lemma idx_upd_other : forall A (l : list A) i j x, i <> j -> 0 <= j -> idx (upd l (Z.to_nat j) x) i = idx l i.
Proof. intros A l i j x N J. unfold idx. destruct (Z.leb_spec 0 i); [|reflexivity]. rewrite nth_error_upd_other by lia. reflexivity. Qed.
(** For text files this is so only for programs that read each row once; *)
Theorem C95_strings_once : forall rows ops outs, once true ops -> simple_run (mkSR rows (-1) []) ops = Ok outs -> simple_run (mkSR rows (-1) []) (filter no_write ops) = Ok outs.
Proof.
  intros rows ops. assert (K : forall ops fresh it m v1 v2 outs, once fresh ops -> (forall i, (if fresh then it <= i else it < i) -> idx m i = idx rows i) -> Forall (fun a => if fresh then a < it else a <= it) v1 ->
    simple_run (mkSR m it v1) ops = Ok outs -> simple_run (mkSR rows it v2) (filter no_write ops) = Ok outs).
  { clear ops. induction ops as [|[| |v j x] ops IH]; intros fresh it m v1 v2 outs O M V E; cbn [simple_run filter no_write sr_mem sr_iter sr_vars once] in *; [exact E| | |].
    - apply (IH true (it + 1) m v1); [exact O|intros i L; apply M; destruct fresh; lia|revert V; apply Forall_impl; intros a A; destruct fresh; lia|exact E].
    - destruct O as (-> & O). rewrite <- (M it) by lia. destruct (idx m it) as [row|e| |]; cbn [bind] in *; try discriminate. destruct (simple_run (mkSR m it (v1 ++ [it])) ops) as [o|e| |] eqn:R; cbn [bind] in E; try discriminate.
      rewrite (IH false it m (v1 ++ [it]) (v2 ++ [it]) o O); [exact E|intros i L; apply M; lia|apply Forall_app; split; [revert V; apply Forall_impl; intros a A; lia|constructor; [lia|constructor]]|exact R].
    - destruct (idx v1 v) as [a|e| |] eqn:Ia; cbn [bind] in E; try discriminate. destruct (idx m a) as [row|e| |] eqn:Im; cbn [bind] in E; try discriminate. destruct (set_idx row j x) as [row'|e| |]; cbn [bind] in E; try discriminate.
      unfold set_idx in E. destruct ((0 <=? a) && (a <? zlen m)) eqn:B; cbn [bind] in E; [|discriminate]. assert (Va : if fresh then a < it else a <= it).
      { rewrite Forall_forall in V. apply V. unfold idx in Ia. destruct (0 <=? v); [|discriminate]. destruct (nth_error v1 (Z.to_nat v)) as [q|] eqn:N; [|discriminate]. injection Ia as <-. exact (nth_error_In _ _ N). }
      apply (IH fresh it (upd m (Z.to_nat a) row') v1); [exact O| |exact V|exact E]. intros i L. rewrite idx_upd_other by (destruct fresh; lia). apply M. exact L. }
  intros outs O E. apply (K ops true (-1) rows [] [] outs O); [reflexivity|constructor|exact E].
Qed.
(** otherwise writing into the row returned changes the file's row *)
Theorem C95_strings_shared_refuted : forall x row rows y,
  simple_run (mkSR ((x :: row) :: rows) (-1) []) [RNext; RStrings; RWrite 0 0 y; RStrings] = Ok [x :: row; y :: row].
Proof.
  intros x row rows y. assert (B : forall A (a : A) l, (0 <? zlen (a :: l)) = true) by (intros A a l; rewrite zlen_cons; pose proof (zlen_nonneg _ l); lia).
  assert (I0 : forall A (a : A) l, idx (a :: l) 0 = Ok a) by reflexivity. assert (S0 : forall A (a b : A) l, set_idx (a :: l) 0 b = Ok (b :: l)) by (intros A a b l; unfold set_idx; rewrite B; reflexivity).
  cbn [simple_run sr_mem sr_iter sr_vars]. change (-1 + 1) with 0. cbn [app]. rewrite !I0. cbn [bind]. rewrite I0. cbn [bind]. rewrite S0. cbn [bind]. rewrite S0. cbn [bind simple_run sr_mem sr_iter sr_vars]. rewrite I0. reflexivity.
Qed.

(** ** examples *)
Example ex_C95 : let ops := [CNew [GStr (bs "a"); GCType StringCell]; CNil; CClone 0; CFormat 0 5; CURL 2 (bs "u"); CFormat 0 0; CFormat 0 7] in
  Forall plain_op ops /\ exists s, hrun (fun _ _ => 3%nat) ([], []) ops = Ok s /\
  reads s = [[GStr (bs "a"); GCType StringCell; GInt KUint16 7]; []; [GStr (bs "a"); GCType HyperlinkStringCell; GInt KUint16 0; GStr (bs "u")]].
Proof. cbn zeta. split; [repeat constructor|]. eexists. split; reflexivity. Qed.

Example ex_C95_rows : let ops := [RNext; RStrings; RWrite 0 0 (bs "z"); RNext; RStrings] in once true ops /\
  simple_run (mkSR [[bs "a"]; [bs "b"]] (-1) []) ops = Ok [[bs "a"]; [bs "b"]] /\ sheet_run (mkHR [[bs "a"]; [bs "b"]] 0 []) ops = Ok [[bs "a"]; [bs "b"]].
Proof. cbn zeta. split; [cbn; auto|]. split; reflexivity. Qed.

Print Assumptions C95_values.
Print Assumptions C95_frame.
Print Assumptions C95_raw.
Print Assumptions C95_assignment_refuted.
Print Assumptions C95_capacity_refuted.
Print Assumptions C95_strings_fresh.
Print Assumptions C95_strings_once.
Print Assumptions C95_strings_shared_refuted.

(** * L_grate: proofs about package grate. *)
From Verif Require Import GoBase M_grate S_grate.
From Coq Require Import Permutation Sorted.

(** induction on errors that sees inside the list of an errx *)
Fixpoint gerr_ind2 (P : gerr -> Prop)
   (H1 : P ENotInFormat) (H2 : P EUnknownFormat) (H3 : P EInvalidScanType) (H4 : P EEOF)
   (H5 : P EUnexpectedEOF) (H6 : forall n, P (ELeaf n))
   (H7 : forall es, Forall P es -> P (EWrap es)) (e : gerr) : P e :=
  match e with
  | ENotInFormat => H1 | EUnknownFormat => H2 | EInvalidScanType => H3 | EEOF => H4
  | EUnexpectedEOF => H5 | ELeaf n => H6 n
  | EWrap es => H7 es ((fix go l := match l return Forall P l with
                                    | [] => Forall_nil P
                                    | x :: r => Forall_cons x (gerr_ind2 P H1 H2 H3 H4 H5 H6 H7 x) (go r)
                                    end) es)
  end.

Lemma same_err_spec : forall e t, same_err e t = true <-> e = t /\ comparable_err t.
Proof.
  intros e t. destruct e, t; simpl; split; intros H;
    try discriminate; try (destruct H; discriminate); try (destruct H; contradiction); auto.
  - apply Z.eqb_eq in H. subst; auto.
  - destruct H as [H _]. inversion H. apply Z.eqb_refl.
Qed.

Lemma errors_is_spec : forall e t, comparable_err t -> errors_is e t = true <-> on_chain t e.
Proof.
  intros e t Ht. induction e as [| | | | |n|es H] using gerr_ind2;
    try (cbn [errors_is]; rewrite orb_false_r, same_err_spec; split;
         [ intros [<- _]; constructor
         | intros Hc; inversion Hc; subst; [auto | discriminate] ]).
  change (errors_is (EWrap es) t) with
    (same_err (EWrap es) t || match es with _ :: b :: _ => errors_is b t | _ => false end).
  assert (Hs : same_err (EWrap es) t = false) by reflexivity.
  rewrite Hs. simpl orb. destruct es as [|a [|b es]].
  - split; [discriminate|]. intros Hc; inversion Hc; subst; [destruct Ht | discriminate].
  - split; [discriminate|]. intros Hc; inversion Hc; subst; [destruct Ht | discriminate].
  - inversion H as [|? ? _ Hb]; subst. inversion Hb as [|? ? Hb' _]; subst.
    rewrite Hb'. split.
    + intros Hc. eapply chain_step; [reflexivity | exact Hc].
    + intros Hc. inversion Hc as [|? ? Hu Hc']; subst; [destruct Ht|].
      simpl in Hu. inversion Hu; subst. exact Hc'.
Qed.

Section Proofs.
  Context {W S : Type}.
  Implicit Types (tab : list (src_open_tab W S)) (w : W) (fn : gostr).

  Lemma skips_open : forall (tab : list (src_open_tab W S)) fn w w' rest,
    skips fn tab w w' -> open_file (tab ++ rest) fn w = open_file rest fn w'.
  Proof.
    intros tab fn w w' rest H. induction H; simpl; auto.
    rewrite H. apply errors_is_spec in H0; [|exact I]. rewrite H0. simpl. exact IHskips.
  Qed.

  (** complete case analysis of Open *)
  Lemma open_cases : forall (tab : list (src_open_tab W S)) fn w r w',
    open_file tab fn w = (r, w') ->
    (r = Err EUnknownFormat /\ skips fn tab w w') \/
    (exists pre o post w1,
       tab = pre ++ o :: post /\ skips fn pre w w1 /\ tab_op o fn w1 = (r, w') /\
       (forall e, r = Err e -> ~ on_chain ENotInFormat e)).
  Proof.
    induction tab as [|o tab IH]; intros fn w r w' H; simpl in H.
    - inversion H; subst. left. split; auto. constructor.
    - destruct (tab_op o fn w) as [r1 w1] eqn:E.
      destruct r1 as [s|e| |].
      + inversion H; subst. right. exists [], o, tab, w. repeat split; auto.
        * constructor.
        * intros e; discriminate.
      + destruct (errors_is e ENotInFormat) eqn:Ee; simpl in H.
        * apply IH in H as [[Hr Hs]|(pre & o' & post & w2 & Ht & Hs & Ho & Hn)].
          -- left. split; auto. eapply skips_cons; eauto. apply errors_is_spec; auto. exact I.
          -- right. exists (o :: pre), o', post, w2. subst tab. repeat split; auto.
             eapply skips_cons; eauto. apply errors_is_spec; auto. exact I.
        * inversion H; subst. right. exists [], o, tab, w. repeat split; auto; [constructor|].
          intros e' He Hc. inversion He; subst. apply errors_is_spec in Hc; [congruence|exact I].
      + inversion H; subst. right. exists [], o, tab, w. repeat split; auto; [constructor|].
        intros e; discriminate.
      + inversion H; subst. right. exists [], o, tab, w. repeat split; auto; [constructor|].
        intros e; discriminate.
  Qed.

  Lemma open_first_decisive : forall (pre : list (src_open_tab W S)) o post fn w w1 r w2,
    skips fn pre w w1 -> tab_op o fn w1 = (r, w2) ->
    (forall e, r = Err e -> ~ on_chain ENotInFormat e) ->
    open_file (pre ++ o :: post) fn w = (r, w2).
  Proof.
    intros. erewrite skips_open by eauto. simpl. rewrite H0. destruct r as [s|e| |]; auto.
    destruct (errors_is e ENotInFormat) eqn:Ee; auto. exfalso.
    apply (H1 e eq_refl). apply errors_is_spec; auto. exact I.
  Qed.

  Lemma open_all_skip : forall (tab : list (src_open_tab W S)) fn w w1,
    skips fn tab w w1 -> open_file tab fn w = (Err EUnknownFormat, w1).
  Proof.
    intros. rewrite <- (app_nil_r tab). erewrite skips_open by eauto. reflexivity.
  Qed.

  (** ** Register *)
  Lemma mkTab_eta : forall e : src_open_tab W S, mkTab (tab_name e) (tab_pri e) (tab_op e) = e.
  Proof. destruct e; reflexivity. Qed.

  Lemma registered_from : forall srt hist acc, sorts_by_priority srt -> StronglySorted by_pri acc ->
    Permutation (acc ++ hist)
      (fold_left (fun t (e : src_open_tab W S) => register srt t (tab_name e) (tab_pri e) (tab_op e)) hist acc)
    /\ StronglySorted by_pri
      (fold_left (fun t (e : src_open_tab W S) => register srt t (tab_name e) (tab_pri e) (tab_op e)) hist acc).
  Proof.
    intros srt hist. induction hist as [|e hist IH]; intros acc Hs Hacc; simpl.
    - rewrite app_nil_r. auto.
    - unfold register at 2 4. rewrite mkTab_eta. destruct (Hs (acc ++ [e])) as [Hp Hsort].
      destruct (IH (srt (acc ++ [e])) Hs Hsort) as [H1 H2]. split; auto.
      eapply Permutation_trans; [|exact H1].
      change (e :: hist) with ([e] ++ hist). rewrite app_assoc.
      apply Permutation_app_tail. exact Hp.
  Qed.

  Lemma registered_spec : forall srt hist, sorts_by_priority srt ->
    Permutation hist (registered srt hist) /\ StronglySorted by_pri (registered (W:=W) (S:=S) srt hist).
  Proof.
    intros. apply (registered_from srt hist []); auto. constructor.
  Qed.

  (** two sorted permutations of a list with distinct priorities are equal *)
  Lemma sorted_unique : forall a b : list (src_open_tab W S),
    Permutation a b -> NoDup (map tab_pri a) ->
    StronglySorted by_pri a -> StronglySorted by_pri b -> a = b.
  Proof.
    induction a as [|x a IH]; intros b Hp Hd Ha Hb.
    - apply Permutation_nil in Hp. auto.
    - destruct b as [|y b].
      { apply Permutation_sym, Permutation_nil in Hp. discriminate. }
      inversion Ha as [|? ? Ha1 Ha2]; subst. inversion Hb as [|? ? Hb1 Hb2]; subst.
      inversion Hd as [|? ? Hd1 Hd2]; subst.
      assert (Hxy : x = y).
      { assert (Hx : In x (y :: b)) by (eapply Permutation_in; eauto; left; auto).
        assert (Hy : In y (x :: a)) by (eapply Permutation_in; [apply Permutation_sym; eauto|left; auto]).
        destruct Hx as [->|Hx]; auto. destruct Hy as [->|Hy]; auto.
        rewrite Forall_forall in Ha2, Hb2.
        specialize (Ha2 _ Hy). specialize (Hb2 _ Hx). unfold by_pri in *.
        exfalso. apply Hd1. apply in_map_iff. exists y. split; auto. lia. }
      subst y. f_equal. apply Permutation_cons_inv in Hp. apply IH; auto.
  Qed.

  Lemma registered_order_irrelevant : forall srt1 srt2 h1 h2,
    sorts_by_priority srt1 -> sorts_by_priority srt2 ->
    Permutation h1 h2 -> NoDup (map (@tab_pri W S) h1) ->
    registered srt1 h1 = registered srt2 h2.
  Proof.
    intros srt1 srt2 h1 h2 Hs1 Hs2 Hp Hd.
    destruct (registered_spec srt1 h1 Hs1) as [P1 S1]. destruct (registered_spec srt2 h2 Hs2) as [P2 S2].
    apply sorted_unique; auto.
    - eapply Permutation_trans; [apply Permutation_sym; exact P1|].
      exact (Permutation_trans Hp P2).
    - eapply Permutation_NoDup; [|exact Hd]. apply Permutation_map. exact P1.
  Qed.

  (** sort.Slice's contract is satisfiable: insertion sort *)
  Fixpoint ins (e : src_open_tab W S) l :=
    match l with
    | [] => [e]
    | x :: r => if tab_pri e <=? tab_pri x then e :: l else x :: ins e r
    end.
  Definition isort (l : list (src_open_tab W S)) := fold_right ins [] l.

  Lemma ins_perm : forall e l, Permutation (e :: l) (ins e l).
  Proof.
    induction l as [|x l IH]; simpl; auto. destruct (tab_pri e <=? tab_pri x); auto.
    eapply Permutation_trans; [apply perm_swap|]. apply perm_skip. exact IH.
  Qed.

  Lemma ins_sorted : forall e l, StronglySorted by_pri l -> StronglySorted by_pri (ins e l).
  Proof.
    induction l as [|x l IH]; intros H; simpl.
    - repeat constructor.
    - inversion H as [|? ? H1 H2]; subst. destruct (Z.leb_spec (tab_pri e) (tab_pri x)).
      + constructor; auto. constructor; auto. eapply Forall_impl; [|exact H2].
        intros a Ha. unfold by_pri in *. lia.
      + constructor; auto. rewrite Forall_forall in *. intros a Ha.
        apply (Permutation_in _ (Permutation_sym (ins_perm e l))) in Ha.
        destruct Ha as [<-|Ha]; auto. unfold by_pri. lia.
  Qed.

  Lemma isort_sorts : sorts_by_priority isort.
  Proof.
    intros l. induction l as [|x l [Hp Hs]]; simpl.
    - split; constructor.
    - split; [|apply ins_sorted; auto].
      eapply Permutation_trans; [apply perm_skip; exact Hp|]. apply ins_perm.
  Qed.
End Proofs.

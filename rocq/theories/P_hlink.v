(** * P_hlink: property C54 (hyperlink decoding). *)
From Verif Require Import GoBase GoUnicode L_base M_hlink S_hlink L_xlstr L_hlink.
From Coq Require Import ZifyBool.

Lemma frame_skip : forall us rest sp, fits16 us ->
  (s <- sl_to (mkSl (hstring us ++ rest) sp) 4 ;; slen <- le32 (dat s) ;; sl_from (mkSl (hstring us ++ rest) sp) (u32 (4 + u32 (slen * 2)))) = Ok (mkSl rest sp).
Proof.
  intros us rest sp [F L]. unfold hstring. rewrite <- app_assoc. rewrite sl_to_ok by reflexivity. cbn [bind dat]. pose proof (zlen_nonneg _ us). rewrite le32_put32' by lia. cbn [bind].
  rewrite app_assoc. apply sl_from_app. rewrite zlen_app, zlen_units16, zlen_app. change (zlen (put32 _)) with 4. change (zlen [0]) with 1. unfold u32. rewrite !Z.mod_small; lia.
Qed.

Lemma moniker_url : forall us extra rest sp, hl_ok (mkHL (repeat 0 16) 0 None None (Some (TUrl us extra)) None []) ->
  parse_moniker (mkSl (target_bytes (TUrl us extra) ++ rest) sp) = Ok (utf16_string us ++ [0], zlen (target_bytes (TUrl us extra))).
Proof.
  intros us extra rest sp (_ & _ & _ & _ & _ & _ & ([F L] & NZ & X)). cbn [hl_target] in *.
  set (all := us ++ [0] ++ match extra with None => [] | Some e => e end).
  assert (FA : Forall (fun u => 0 <= u < 65536) all). { unfold all. apply Forall_app. split; auto. constructor; [lia|]. destruct extra; [apply X|constructor]. }
  assert (LA : zlen all = zlen us + 1 + match extra with None => 0 | Some _ => 12 end).
  { unfold all. rewrite !zlen_app. change (zlen [0]) with 1. destruct extra; [lia|]. change (zlen (@nil Z)) with 0. lia. }
  pose proof (zlen_nonneg _ us). assert (RA : 0 < zlen all < 2000000000) by (destruct extra; lia).
  unfold parse_moniker, target_bytes. fold all. rewrite <- !app_assoc. rewrite sl_to_ok by reflexivity. cbn [bind dat].
  change (str_eqb url_class url_moniker_id) with true. cbv iota. rewrite sl_from_app by reflexivity. cbn [bind dat]. rewrite le32_put32 by lia. cbn [bind].
  replace (2 * zlen all / 2) with (zlen all) by lia. rewrite to_nat_zlen. rewrite app_assoc. rewrite units_off_ok by (auto; reflexivity). cbn [bind].
  assert (BE : (if 12 <? zlen all then x <- idx all (zlen all - 13) ;; Ok (if x =? 0 then ztake (zlen all - 12) all else all) else Ok all) = Ok (us ++ [0])).
  { unfold all in LA |- *. destruct extra as [e|].
    - rewrite LA. destruct (Z.ltb_spec 12 (zlen us + 1 + 12)); [|lia]. cbn [app]. rewrite (idx_app_exact _ us 0) by lia. cbn [bind]. change (0 =? 0) with true. cbv iota.
      replace (us ++ 0 :: e) with ((us ++ [0]) ++ e) by (rewrite <- app_assoc; reflexivity). rewrite ztake_app_exact' by (rewrite zlen_app; change (zlen [0]) with 1; lia). reflexivity.
    - rewrite app_nil_r in *. destruct (Z.ltb_spec 12 (zlen (us ++ [0]))); [|reflexivity].
      destruct (idx_in _ us (zlen (us ++ [0]) - 13)) as (x & Hx); [rewrite zlen_app in *; change (zlen [0]) with 1 in *; lia|].
      assert (HX : idx (us ++ [0]) (zlen (us ++ [0]) - 13) = Ok x).
      { revert Hx. unfold idx. destruct (0 <=? zlen (us ++ [0]) - 13) eqn:Q; [|discriminate]. intros Hx. rewrite nth_error_app1; [exact Hx|].
        destruct (nth_error us (Z.to_nat (zlen (us ++ [0]) - 13))) eqn:N; [|discriminate]. apply nth_error_Some. congruence. }
      rewrite HX. cbn [bind]. assert (XN : x <> 0).
      { rewrite Forall_forall in NZ. apply NZ. revert Hx. unfold idx. destruct (0 <=? _); [|discriminate]. destruct (nth_error us _) eqn:N; [|discriminate]. intros Q. injection Q as <-. eapply nth_error_In; eauto. }
      destruct (Z.eqb_spec x 0); [congruence|reflexivity]. }
  rewrite BE. cbn [bind]. rewrite utf16_string_app0. do 2 f_equal. rewrite !zlen_app, zlen_units16. change (zlen (put32 (2 * zlen all))) with 4. change (zlen url_class) with 16. lia.
Qed.

Lemma moniker_file : forall canti ansi misc path rest sp, hl_ok (mkHL (repeat 0 16) 0 None None (Some (TFile canti ansi misc path)) None []) ->
  parse_moniker (mkSl (target_bytes (TFile canti ansi misc path) ++ rest) sp) = Ok (target_text (TFile canti ansi misc path), zlen (target_bytes (TFile canti ansi misc path))).
Proof.
  intros canti ansi misc path rest sp (_ & _ & _ & _ & _ & _ & (RC & LA & LM & X)). cbn [hl_target] in *. pose proof (zlen_nonneg _ ansi).
  unfold parse_moniker, target_bytes. set (pt := match path with None => put32 0 | Some (k, us) => _ end). rewrite <- !app_assoc. rewrite sl_to_ok by reflexivity. cbn [bind dat].
  change (str_eqb file_class url_moniker_id) with false. change (str_eqb file_class file_moniker_id) with true. cbv iota.
  rewrite (app_assoc file_class). rewrite sl_from_app by reflexivity. cbn [bind dat]. rewrite le32_put32 by lia. cbn [bind].
  rewrite (app_assoc (file_class ++ put16 canti)). rewrite sl_range_mid by reflexivity. cbn [bind].
  set (h := (file_class ++ put16 canti) ++ put32 (zlen ansi)). assert (LH : zlen h = 22) by reflexivity.
  replace (h ++ ansi ++ misc ++ pt ++ rest) with ((h ++ ansi ++ misc) ++ pt ++ rest) by (rewrite <- !app_assoc; reflexivity).
  set (h2 := h ++ ansi ++ misc). assert (LH2 : zlen h2 = 22 + (zlen ansi + 24)) by (unfold h2; rewrite !zlen_app; lia).
  rewrite sl_from_app by auto. cbn [bind dat].
  destruct path as [[k us]|].
  - destruct X as [F L]. pose proof (zlen_nonneg _ us). unfold pt. rewrite <- !app_assoc. rewrite le32_put32 by lia. cbn [bind].
    destruct (Z.ltb_spec 0 (6 + 2 * zlen us)); [|lia]. unfold u32. rewrite Z.mod_small by lia. replace ((6 + 2 * zlen us - 6) / 2) with (zlen us) by lia. rewrite to_nat_zlen.
    replace (h2 ++ put32 (6 + 2 * zlen us) ++ put32 (2 * zlen us) ++ put16 k ++ units16 us ++ rest) with ((h2 ++ put32 (6 + 2 * zlen us) ++ put32 (2 * zlen us) ++ put16 k) ++ units16 us ++ rest) by (rewrite <- !app_assoc; reflexivity).
    rewrite units_off_ok by (auto; rewrite !zlen_app, LH2; change (zlen (put32 (6 + 2 * zlen us))) with 4; change (zlen (put32 (2 * zlen us))) with 4; change (zlen (put16 k)) with 2; lia).
    cbn [bind target_text]. do 2 f_equal. rewrite !zlen_app, zlen_units16, LM. change (zlen file_class) with 16. change (zlen (put16 canti)) with 2. change (zlen (put32 (zlen ansi))) with 4. change (zlen (put32 (6 + 2 * zlen us))) with 4; change (zlen (put32 (2 * zlen us))) with 4; change (zlen (put16 k)) with 2. lia.
  - unfold pt. change (le32 (put32 0 ++ rest)) with (@Ok Z 0). cbn [bind]. change (0 <? 0) with false. cbv iota. cbn [dat target_text]. do 2 f_equal. rewrite !zlen_app, LM. change (zlen file_class) with 16. change (zlen (put16 canti)) with 2. change (zlen (put32 (zlen ansi))) with 4. change (zlen (put32 0)) with 4. lia.
Qed.

Definition tnul (h : hlink) : bool := (* the decoded target text still carries its terminator *)
  match hl_target h with Some (TFile _ _ _ _) => false | Some _ => true | None => false end.

(** Every combination of display name, frame name, target and location decodes to the display
    text and the link text, without blanks and NULs at their ends; whatever follows is ignored. *)
Theorem C54_hyperlinks : forall h rest sp, hl_ok h ->
  exists d l, decode_hyperlinks (mkSl (hl_bytes h ++ rest) sp) = Ok (d, l) /\ trimmed (otext (hl_disp h)) d /\ trimmed (link_text h) l.
Proof.
  intros h rest sp OK. pose proof (hl_flags_bits h OK) as (B16 & B128 & B1 & B8 & B256 & RF). pose proof OK as (LC & _ & _ & FD & FF & FL & FT).
  exists (go_trim (otext (hl_disp h))), (go_trim (link_text h)). split; [|split; apply go_trim_trimmed].
  unfold decode_hyperlinks, hl_bytes. rewrite <- !app_assoc. rewrite sl_from_app by auto. cbn [bind]. rewrite sl_to_ok by reflexivity. cbn [bind dat]. change (le32 (put32 2)) with (@Ok Z 2). cbn [bind]. change (2 =? 2) with true. cbn [negb].
  rewrite sl_range_mid by reflexivity. cbn [bind dat]. rewrite le32_put32' by auto. cbn [bind]. rewrite app_assoc. rewrite sl_from_app by reflexivity. cbn [bind]. rewrite B16, B128, B1, B8, B256.
  set (tg := match hl_target h with None => [] | Some t => target_bytes t end).
  set (r1 := hopt (hl_frame h) ++ tg ++ hopt (hl_loc h) ++ hl_tail h ++ rest).
  assert (E1 : exists dtxt, (if is_someb (hl_disp h) then hl_string (mkSl (hopt (hl_disp h) ++ r1) sp) else Ok ([], mkSl (hopt (hl_disp h) ++ r1) sp)) = Ok (dtxt, mkSl r1 sp) /\ go_trim dtxt = go_trim (otext (hl_disp h))).
  { destruct (hl_disp h) as [us|]; cbn [is_someb hopt otext app]; [|eauto]. rewrite hl_string_ok by auto. eexists. split; [reflexivity|]. apply go_trim_app0. }
  destruct E1 as (dtxt & E1 & T1). rewrite E1. cbn [bind]. clear E1. unfold r1. set (r2 := tg ++ hopt (hl_loc h) ++ hl_tail h ++ rest).
  match goal with |- (raw <- ?X ;; _) = _ => assert (E2 : X = Ok (mkSl r2 sp)) end.
  { destruct (hl_frame h) as [us|]; cbn [is_someb hopt app]; [|reflexivity]. apply frame_skip. exact FF. }
  rewrite E2. cbn [bind]. clear E2. unfold r2. set (r3 := hopt (hl_loc h) ++ hl_tail h ++ rest).
  match goal with |- ('(_, _) <- ?X ;; _) = _ => assert (E3 : exists ltxt, X = Ok (ltxt, mkSl r3 sp) /\ go_trim ltxt = go_trim (match hl_target h with Some t => target_text t | None => [] end)) end.
  { unfold tg. destruct (hl_target h) as [[us|us e|a b m p]|]; cbn [is_someb].
    - cbn [target_bytes target_text]. rewrite hl_string_ok by exact FT. eexists. split; [reflexivity|]. apply go_trim_app0.
    - rewrite moniker_url by (unfold hl_ok; cbn [hl_class hl_other hl_disp hl_frame hl_loc hl_target ofits16]; repeat split; try apply FT; try reflexivity; lia). cbn [bind]. rewrite sl_from_app by reflexivity. cbn [bind]. eexists. split; [reflexivity|]. apply go_trim_app0.
    - rewrite moniker_file by (unfold hl_ok; cbn [hl_class hl_other hl_disp hl_frame hl_loc hl_target ofits16]; repeat split; try apply FT; try reflexivity; lia). cbn [bind]. rewrite sl_from_app by reflexivity. cbn [bind]. eauto.
    - cbn [app]. eauto. }
  destruct E3 as (ltxt & E3 & T3). rewrite E3. cbn [bind]. clear E3. unfold r3, link_text.
  destruct (hl_loc h) as [us|]; cbn [is_someb hopt].
  - rewrite hl_string_ok by exact FL. cbn [bind]. rewrite T1, go_trim_app0. reflexivity.
  - cbn [app bind]. rewrite T1, T3. reflexivity.
Qed.
(** The trimmed text is determined by the text. *)
Theorem C54_trim_unique : forall s t, trimmed s t -> t = go_trim s.
Proof.
  intros s t ((a & b & E & Fa & Fb) & N1 & N2). subst s. unfold go_trim. rewrite trim_left_app by auto.
  destruct t as [|x t].
  - cbn [app]. rewrite <- (app_nil_r b). rewrite trim_left_app by auto. reflexivity.
  - rewrite (trim_left_id ((x :: t) ++ b)) by (intros y z Q; apply (N1 y t); simpl in Q; congruence). rewrite rev_app_distr. rewrite trim_left_app by (apply Forall_rev; auto).
    rewrite trim_left_id; [rewrite rev_involutive; reflexivity|]. intros y z Q. apply (N2 y (rev z)). rewrite <- (rev_involutive (x :: t)), Q. reflexivity.
Qed.
(** Anything but version 2 is an error. *)
Theorem C54_version : forall cls v rest sp, zlen cls = 16 -> 0 <= v < 4294967296 -> v <> 2 ->
  decode_hyperlinks (mkSl (cls ++ put32 v ++ rest) sp) = Err EHyperVersion.
Proof.
  intros cls v rest sp L R N. unfold decode_hyperlinks. rewrite sl_from_app by auto. cbn [bind]. rewrite sl_to_ok by reflexivity. cbn [bind dat]. rewrite le32_put32' by auto. cbn [bind].
  destruct (Z.eqb_spec v 2); [congruence|reflexivity].
Qed.

Definition ex_link : hlink := mkHL (repeat 7 16) 6 (Some (bs " see me ")) (Some (bs "_top")) (Some (TUrl (bs "http://x.org/") (Some (repeat 5 12)))) None [1; 2].
Example ex_C54_ok : hl_ok ex_link.
Proof. unfold hl_ok, ex_link. cbn [hl_class hl_other hl_disp hl_frame hl_loc hl_target ofits16]. unfold fits16. repeat split; try (vm_compute; congruence); try (repeat constructor; vm_compute; congruence); try (repeat (constructor; [vm_compute; split; congruence|]); constructor). Qed.
Example ex_C54 : decode_hyperlinks (mkSl (hl_bytes ex_link) []) = Ok (bs "see me", bs "http://x.org/").
Proof. vm_compute. reflexivity. Qed.
Example ex_C54_loc : decode_hyperlinks (mkSl (hl_bytes (mkHL (repeat 7 16) 0 None None (Some (TFile 0 (bs "A.XLS" ++ [0]) (repeat 0 24) (Some (3, bs "a b.xls")))) (Some (bs "Sheet2!A1")) [])) []) = Ok ([], bs "Sheet2!A1") /\
  decode_hyperlinks (mkSl (hl_bytes (mkHL (repeat 7 16) 0 None None (Some (TFile 0 (bs "A.XLS" ++ [0]) (repeat 0 24) (Some (3, bs "a b.xls")))) None [])) []) = Ok ([], bs "a b.xls").
Proof. split; vm_compute; reflexivity. Qed.

Print Assumptions C54_hyperlinks.
Print Assumptions C54_trim_unique.
Print Assumptions C54_version.

(** * P_grate: properties C01, C02, C03 (package grate). *)
From Verif Require Import GoBase M_grate S_grate L_grate.
From Coq Require Import Permutation Sorted.

(** C01.  For every opener table, file name and world:  Open behaves as the first opener
    that does not report not-in-format, called in the world left by the openers before it,
    and no opener after it contributes to the result or to the world. *)
Theorem C01_open_first_decisive :
  forall (W S : Type) (pre : list (src_open_tab W S)) o post fn w w1 r w2,
    skips fn pre w w1 ->
    tab_op o fn w1 = (r, w2) ->
    (forall e, r = Err e -> ~ on_chain ENotInFormat e) ->
    open_file (pre ++ o :: post) fn w = (r, w2).
Proof. exact (fun W S => @open_first_decisive W S). Qed.

(** C01, the other direction: nothing else can happen.  Either every opener reported
    not-in-format and the result is ErrUnknownFormat, or some opener was decisive. *)
Theorem C01_open_cases :
  forall (W S : Type) (tab : list (src_open_tab W S)) fn w r w',
    open_file tab fn w = (r, w') ->
    (r = Err EUnknownFormat /\ skips fn tab w w') \/
    (exists pre o post w1,
       tab = pre ++ o :: post /\ skips fn pre w w1 /\ tab_op o fn w1 = (r, w') /\
       (forall e, r = Err e -> ~ on_chain ENotInFormat e)).
Proof. exact (fun W S => @open_cases W S). Qed.

Theorem C01_open_unknown :
  forall (W S : Type) (tab : list (src_open_tab W S)) fn w w1,
    skips fn tab w w1 -> open_file tab fn w = (Err EUnknownFormat, w1).
Proof. exact (fun W S => @open_all_skip W S). Qed.

(** C02.  Whatever algorithm sort.Slice uses, the table after any registration history is a
    priority-sorted permutation of the registrations. *)
Theorem C02_table_sorted_permutation :
  forall (W S : Type) srt (hist : list (src_open_tab W S)),
    sorts_by_priority srt ->
    Permutation hist (registered srt hist) /\ StronglySorted by_pri (registered srt hist).
Proof. exact (fun W S => @registered_spec W S). Qed.

(** C02.  With pairwise distinct priorities the table does not depend on the order of
    registration nor on the sorting algorithm. *)
Theorem C02_registration_order_irrelevant :
  forall (W S : Type) srt1 srt2 (h1 h2 : list (src_open_tab W S)),
    sorts_by_priority srt1 -> sorts_by_priority srt2 ->
    Permutation h1 h2 -> NoDup (map (@tab_pri W S) h1) ->
    registered srt1 h1 = registered srt2 h2.
Proof. exact (fun W S => @registered_order_irrelevant W S). Qed.

(** C03.  errors.Is sees exactly the unwrap chain. *)
Theorem C03_errors_is_chain :
  forall e t, comparable_err t -> (errors_is e t = true <-> on_chain t e).
Proof. exact errors_is_spec. Qed.

(** C03.  Of the arguments of WrapErr only the second (or a single one) is seen. *)
Theorem C03_wrap_second :
  forall a b rest t, comparable_err t ->
    errors_is (wrap_err (a :: b :: rest)) t = errors_is b t.
Proof.
  intros. simpl. destruct t; try contradiction; reflexivity.
Qed.

Theorem C03_wrap_single : forall a, wrap_err [a] = a.
Proof. exact (fun a => eq_refl). Qed.

(** C03.  The text shown is the first error's; an errx without errors panics. *)
Theorem C03_wrap_text :
  forall text a b rest,
    err_text text (wrap_err (a :: b :: rest)) = err_text text a /\
    err_text text (wrap_err []) = Panic.
Proof. exact (fun _ _ _ _ => conj eq_refl eq_refl). Qed.

Print Assumptions C01_open_first_decisive.
Print Assumptions C01_open_cases.
Print Assumptions C01_open_unknown.
Print Assumptions C02_table_sorted_permutation.
Print Assumptions C02_registration_order_irrelevant.
Print Assumptions C03_errors_is_chain.
Print Assumptions C03_wrap_second.
Print Assumptions C03_wrap_text.

(** ** The hypotheses are met by non-trivial cases *)

(** a world that records which openers were called *)
Definition logging (name : gostr) (r : res Z) : opener (list gostr) Z :=
  fun _ w => (r, w ++ [name]).

Definition stock : list (src_open_tab (list gostr) Z) :=
  [ mkTab (bs "csv") 15 (logging (bs "csv") (Ok 4));
    mkTab (bs "xls") 1 (logging (bs "xls") (Err (wrap_err [ELeaf 7; ENotInFormat])));
    mkTab (bs "tsv") 10 (logging (bs "tsv") (Ok 3));
    mkTab (bs "xlsx") 5 (logging (bs "xlsx") (Err ENotInFormat)) ].

Example ex_open_stock :
  open_file (registered isort stock) (bs "f") [] = (Ok 3, [bs "xls"; bs "xlsx"; bs "tsv"]).
Proof. vm_compute. reflexivity. Qed.

Example ex_open_stock_hyps :
  exists pre o post w1,
    registered isort stock = pre ++ o :: post /\
    skips (bs "f") pre [] w1 /\ pre <> [] /\ post <> [] /\
    tab_op o (bs "f") w1 = (Ok 3, [bs "xls"; bs "xlsx"; bs "tsv"]).
Proof.
  exists [ mkTab (bs "xls") 1 (logging (bs "xls") (Err (wrap_err [ELeaf 7; ENotInFormat])));
           mkTab (bs "xlsx") 5 (logging (bs "xlsx") (Err ENotInFormat)) ],
         (mkTab (bs "tsv") 10 (logging (bs "tsv") (Ok 3))),
         [ mkTab (bs "csv") 15 (logging (bs "csv") (Ok 4)) ], [bs "xls"; bs "xlsx"].
  repeat split; try discriminate.
  eapply skips_cons; [reflexivity| |].
  - eapply chain_step; [reflexivity|constructor].
  - eapply skips_cons; [reflexivity|constructor|constructor].
Qed.

Example ex_order_hyps :
  sorts_by_priority (@isort (list gostr) Z) /\
  NoDup (map (@tab_pri (list gostr) Z) stock) /\ Permutation stock (rev stock) /\ stock <> rev stock.
Proof.
  repeat split.
  - exact (proj1 (isort_sorts l)).
  - exact (proj2 (isort_sorts l)).
  - simpl. repeat constructor; simpl; intuition discriminate.
  - apply Permutation_rev.
  - intros E. apply (f_equal (map tab_name)) in E. vm_compute in E. discriminate.
Qed.

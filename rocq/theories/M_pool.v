(** * M_pool: workbooks that share the pool of records, xls/xls.go.

    Several goroutines open, reload and close workbooks, each workbook being used by one
    goroutine at a time.  They share recPool, so a step is one pool operation or one write to a
    record, and the steps of the goroutines interleave freely.  sync.Pool.Get may return any
    record of the pool or a new one, and the pool may lose records at any time.  A record is an
    address in a heap; what M_biff calls a record is the contents of such an address. *)
From Verif Require Export GoBase M_biff.

(** the heap of records; addresses are handed out in order *)
Definition heap := nat -> brec.
Definition zero_rec : brec := mkRec 0 0 (mkSl [] []).
Definition hput (h : heap) (a : nat) (r : brec) : heap := fun b => if Nat.eqb a b then r else h b.

(** b.substreams and the variables of the loop, xls.go:175-180: as bst in M_biff, but with
    pointers *)
Record cst : Type := mkCst { c_sub : Z; c_nest : Z; c_pos : Z; c_streams : list (list nat); c_map : list (Z * Z) }.
Definition cst0 : cst := mkCst (-1) 0 0 [] [].
(** xls.go:195-207, with the record read through its pointer *)
Definition c_enter (st : cst) (r : brec) : cst :=
  let st :=
    if b_type r =? RecTypeEOF then mkCst (c_sub st) (c_nest st - 1) (c_pos st) (c_streams st) (c_map st)
    else if b_type r =? RecTypeBOF then
      let st := if c_nest st =? 0
                then mkCst (zlen (c_streams st)) (c_nest st) (c_pos st) (c_streams st ++ [[]])
                           (zput (c_pos st) (zlen (c_streams st)) (c_map st))
                else st in
      mkCst (c_sub st) (c_nest st + 1) (c_pos st) (c_streams st) (c_map st)
    else st in
  mkCst (c_sub st) (c_nest st) (c_pos st + (4 + sl_len (b_data r))) (c_streams st) (c_map st).
(** xls.go:228 *)
Definition c_store (st : cst) (a : nat) : res cst :=
  l <- idx (c_streams st) (c_sub st) ;;
  ss <- set_idx (c_streams st) (c_sub st) (l ++ [a]) ;;
  Ok (mkCst (c_sub st) (c_nest st) (c_pos st) ss (c_map st)).

(** how the last call ended *)
Inductive outcome :=
| ONone                                          (* new, or closed *)
| ODone (raw : slice) (dec : bool)               (* all records read *)
| OFilePass (raw : slice) (data : slice)         (* encrypted: the caller decrypts and loads again *)
| OErr (raw : slice) (dec : bool) (e : gerr).
(** where a workbook is in Close and loadFromStream2 *)
Inductive pc :=
| PIdle (o : outcome)
| PRel (todo : list nat) (next : option (slice * bool))             (* loops xls.go:164-170 (None) and 183-188 *)
| PNil (a : nat) (todo : list nat)                                  (* Close: between r.Data = nil and Put *)
| PLoad (raw0 : slice) (dec : bool) (raw : slice)                   (* before nextRecord *)
| PGot (raw0 : slice) (dec : bool) (raw : slice) (a : nat)          (* nextRecord: after Get *)
| PHead (raw0 : slice) (dec : bool) (raw : slice) (a : nat)         (* RecType and RecSize written *)
| PHave (raw0 : slice) (dec : bool) (raw : slice) (a : nat)         (* nextRecord has returned *)
| PDead.                                                            (* a panic *)
Record wbt : Type := mkW { w_pc : pc; w_st : cst }.
Definition w_new : wbt := mkW (PIdle ONone) cst0.

(** the shared part: heap, number of addresses in use, pool *)
Record shared : Type := mkShared { s_heap : heap; s_next : nat; s_free : list nat }.

Inductive tstep : shared -> wbt -> shared -> wbt -> Prop :=
(* calls *)
| TClose : forall s o c, tstep s (mkW (PIdle o) c) s (mkW (PRel (concat (c_streams c)) None) c)
| TLoad : forall s o c raw dec, tstep s (mkW (PIdle o) c) s (mkW (PRel (concat (c_streams c)) (Some (raw, dec))) c)
(* Close: r.Data = nil, then Put *)
| TNil : forall h n f a todo c, let r := h a in
    tstep (mkShared h n f) (mkW (PRel (a :: todo) None) c) (mkShared (hput h a (mkRec (b_type r) (b_size r) (mkSl [] []))) n f) (mkW (PNil a todo) c)
| TPutNil : forall h n f a todo c, tstep (mkShared h n f) (mkW (PNil a todo) c) (mkShared h n (a :: f)) (mkW (PRel todo None) c)
(* loadFromStream2: Put *)
| TPut : forall h n f a todo c x, tstep (mkShared h n f) (mkW (PRel (a :: todo) (Some x)) c) (mkShared h n (a :: f)) (mkW (PRel todo (Some x)) c)
(* b.substreams = b.substreams[:0] *)
| TClosed : forall s c, tstep s (mkW (PRel [] None) c) s (mkW (PIdle ONone) cst0)
| TBegin : forall s c raw dec, tstep s (mkW (PRel [] (Some (raw, dec))) c) s (mkW (PLoad raw dec raw) cst0)
(* nextRecord, xls.go:346-360 *)
| TEnd : forall s c raw0 dec raw, sl_len raw < 4 -> tstep s (mkW (PLoad raw0 dec raw) c) s (mkW (PIdle (ODone raw0 dec)) c)
| TGetOld : forall h n f1 a f2 c raw0 dec raw, ~ sl_len raw < 4 ->
    tstep (mkShared h n (f1 ++ a :: f2)) (mkW (PLoad raw0 dec raw) c) (mkShared h n (f1 ++ f2)) (mkW (PGot raw0 dec raw a) c)
| TGetNew : forall h n f c raw0 dec raw, ~ sl_len raw < 4 ->
    tstep (mkShared h n f) (mkW (PLoad raw0 dec raw) c) (mkShared (hput h n zero_rec) (S n) f) (mkW (PGot raw0 dec raw n) c)
| THead : forall h n f c raw0 dec raw a ty size, le16 (dat raw) = Ok ty -> le16 (zdrop 2 (dat raw)) = Ok size ->
    tstep (mkShared h n f) (mkW (PGot raw0 dec raw a) c) (mkShared (hput h a (mkRec ty size (b_data (h a)))) n f) (mkW (PHead raw0 dec raw a) c)
| TShort : forall h n f c raw0 dec raw a body, sl_from raw 4 = Ok body -> sl_len body < b_size (h a) ->
    tstep (mkShared h n f) (mkW (PHead raw0 dec raw a) c) (mkShared h n (a :: f)) (mkW (PIdle (OErr raw0 dec EUnexpectedEOF)) c)
| TData : forall h n f c raw0 dec raw a body d, sl_from raw 4 = Ok body -> ~ sl_len body < b_size (h a) -> sl_range raw 4 (u16 (4 + b_size (h a))) = Ok d ->
    tstep (mkShared h n f) (mkW (PHead raw0 dec raw a) c) (mkShared (hput h a (mkRec (b_type (h a)) (b_size (h a)) d)) n f) (mkW (PHave raw0 dec raw a) c)
| TDataPanic : forall h n f c raw0 dec raw a body, sl_from raw 4 = Ok body -> ~ sl_len body < b_size (h a) -> sl_range raw 4 (u16 (4 + b_size (h a))) = Panic ->
    tstep (mkShared h n f) (mkW (PHead raw0 dec raw a) c) (mkShared h n f) (mkW PDead c)
(* the loop body, xls.go:192-230; the record that holds the FilePass is not given back *)
| TPass : forall h n f c raw0 raw raw' a, sl_from raw (u16 (4 + b_size (h a))) = Ok raw' -> b_type (h a) = RecTypeFilePass ->
    tstep (mkShared h n f) (mkW (PHave raw0 false raw a) c) (mkShared h n f) (mkW (PIdle (OFilePass raw0 (b_data (h a)))) (c_enter c (h a)))
| TStore : forall h n f c raw0 dec raw raw' a c', sl_from raw (u16 (4 + b_size (h a))) = Ok raw' -> b_type (h a) <> RecTypeFilePass \/ dec = true -> c_store (c_enter c (h a)) a = Ok c' ->
    tstep (mkShared h n f) (mkW (PHave raw0 dec raw a) c) (mkShared h n f) (mkW (PLoad raw0 dec raw') c')
| TStorePanic : forall h n f c raw0 dec raw raw' a, sl_from raw (u16 (4 + b_size (h a))) = Ok raw' -> b_type (h a) <> RecTypeFilePass \/ dec = true -> c_store (c_enter c (h a)) a = Panic ->
    tstep (mkShared h n f) (mkW (PHave raw0 dec raw a) c) (mkShared h n f) (mkW PDead c).

(** any number of workbooks; the garbage collector may empty the pool *)
Record pstate : Type := mkP { p_sh : shared; p_wbs : list wbt }.
Inductive pstep : pstate -> pstate -> Prop :=
| PStep : forall s s' pre w w' post, tstep s w s' w' -> pstep (mkP s (pre ++ w :: post)) (mkP s' (pre ++ w' :: post))
| PNew : forall s ws, pstep (mkP s ws) (mkP s (ws ++ [w_new]))
| PGC : forall h n f1 a f2 ws, pstep (mkP (mkShared h n (f1 ++ a :: f2)) ws) (mkP (mkShared h n (f1 ++ f2)) ws).
Definition pstart : pstate := mkP (mkShared (fun _ => zero_rec) O []) [].
Inductive psteps : pstate -> pstate -> Prop :=
| psteps_refl : forall s, psteps s s
| psteps_step : forall a b c, psteps a b -> pstep b c -> psteps a c.

(** * M_outpool: the pool of outputs of grate2tsv, cmd/grate2tsv/main.go:49-57, 92-100, 219-229, 261-263.

    The transition system of M_tsv, in which an output of a file simply is (i, k), in the terms of the
    code: what travels from the workers to the clean-up goroutine are pointers to structs with a file
    and a writer, taken from a pool and returned to it.  sync.Pool.Get may return any struct of the pool
    or a new one, and the pool may lose structs at any time. *)
From Verif Require Export GoBase M_tsv.

(** type output, main.go:54-57: the file and the writer in it; a file and the writer made for it are
    named by the output (i, k) for which os.Create was called *)
Record outobj : Type := mkOb { ob_f : option (nat * nat); ob_b : option (nat * nat) }.
Definition oheap := nat -> outobj.
Definition oput (h : oheap) (a : nat) (o : outobj) : oheap := fun b => if Nat.eqb a b then o else h b.

(** a worker: as in M_tsv, but making an output takes several steps *)
Inductive pw :=
| PPlain (w : wpc)                     (* any state of M_tsv except WSend *)
| PFile (i k : nat)                    (* os.Create returned, main.go:221 *)
| PGot (i k a : nat)                   (* ox = outpool.Get(), main.go:225 *)
| PSet (i k a : nat)                   (* ox.f = f, main.go:226 *)
| PFull (i k a : nat)                  (* ox.b = bufio.NewWriter(f), main.go:227 *)
| PRows (i k a : nat) (w : nat * nat). (* w = ox.b, main.go:228: the rows go to w, then cleanup <- ox *)
(** the clean-up goroutine, main.go:93-100 *)
Inductive pcl :=
| PcRecv
| PcFlush (a : nat)                    (* x.b.Flush() *)
| PcClose (a : nat)                    (* x.f.Close() *)
| PcPut (a : nat)                      (* outpool.Put(x) *)
| PcDone
| PcEnd.
Record pst : Type := mkP {
  p_main : mpc; p_ws : list pw; p_wg : Z; p_locked : bool; p_stats : list gostr;
  p_buf : list nat; p_cl : pcl;
  p_created : list (nat * nat); p_flushed : list (nat * nat); p_closed : list (nat * nat);
  p_heap : oheap; p_next : nat; p_free : list nat }.

Section pooled.
  Variable jobs : nat -> job.
  Inductive pstep : pst -> pst -> Prop :=
  (* main, the mutex and the ends of the workers: as in M_tsv *)
  | PSend : forall i todo pre post wg lk fs buf cl cr fd cd h n fr,
      pstep (mkP (MSend (i :: todo)) (pre ++ PPlain WIdle :: post) wg lk fs buf cl cr fd cd h n fr) (mkP (MSend todo) (pre ++ PPlain (WProc i 0) :: post) wg lk fs buf cl cr fd cd h n fr)
  | PCloseNames : forall ws wg lk fs buf cl cr fd cd h n fr, pstep (mkP (MSend []) ws wg lk fs buf cl cr fd cd h n fr) (mkP MWait ws wg lk fs buf cl cr fd cd h n fr)
  | PWait : forall ws lk fs buf cl cr fd cd h n fr, pstep (mkP MWait ws 0 lk fs buf cl cr fd cd h n fr) (mkP MDrain ws 0 lk fs buf cl cr fd cd h n fr)
  | PDone : forall ws wg lk fs buf cr fd cd h n fr, pstep (mkP MDrain ws wg lk fs buf PcDone cr fd cd h n fr) (mkP MExit ws wg lk fs buf PcEnd cr fd cd h n fr)
  | PNoMore : forall m pre post wg lk fs buf cl cr fd cd h n fr, names_closed m ->
      pstep (mkP m (pre ++ PPlain WIdle :: post) wg lk fs buf cl cr fd cd h n fr) (mkP m (pre ++ PPlain WFin :: post) wg lk fs buf cl cr fd cd h n fr)
  | PFin : forall m pre post wg lk fs buf cl cr fd cd h n fr, pstep (mkP m (pre ++ PPlain WFin :: post) wg lk fs buf cl cr fd cd h n fr) (mkP m (pre ++ PPlain WEnd :: post) (wg - 1) lk fs buf cl cr fd cd h n fr)
  | PProcessed : forall m pre i k post wg lk fs buf cl cr fd cd h n fr, ~ (k < List.length (j_outs (jobs i)))%nat ->
      pstep (mkP m (pre ++ PPlain (WProc i k) :: post) wg lk fs buf cl cr fd cd h n fr) (mkP m (pre ++ PPlain (WLock i) :: post) wg lk fs buf cl cr fd cd h n fr)
  | PLock : forall m pre i post wg fs buf cl cr fd cd h n fr,
      pstep (mkP m (pre ++ PPlain (WLock i) :: post) wg false fs buf cl cr fd cd h n fr) (mkP m (pre ++ PPlain (WWrite i (j_lines (jobs i))) :: post) wg true fs buf cl cr fd cd h n fr)
  | PLine : forall m pre i x rest post wg lk fs buf cl cr fd cd h n fr,
      pstep (mkP m (pre ++ PPlain (WWrite i (x :: rest)) :: post) wg lk fs buf cl cr fd cd h n fr) (mkP m (pre ++ PPlain (WWrite i rest) :: post) wg lk (fs ++ [x]) buf cl cr fd cd h n fr)
  | PUnlock : forall m pre i post wg lk fs buf cl cr fd cd h n fr,
      pstep (mkP m (pre ++ PPlain (WWrite i []) :: post) wg lk fs buf cl cr fd cd h n fr) (mkP m (pre ++ PPlain WIdle :: post) wg false fs buf cl cr fd cd h n fr)
  (* an output: main.go:221 *)
  | PCreate : forall m pre i k post wg lk fs buf cl cr fd cd h n fr, (k < List.length (j_outs (jobs i)))%nat ->
      pstep (mkP m (pre ++ PPlain (WProc i k) :: post) wg lk fs buf cl cr fd cd h n fr) (mkP m (pre ++ PFile i k :: post) wg lk fs buf cl (cr ++ [(i, k)]) fd cd h n fr)
  (* main.go:225: from the pool, or a new struct *)
  | PGetOld : forall m pre i k post wg lk fs buf cl cr fd cd h n f1 a f2,
      pstep (mkP m (pre ++ PFile i k :: post) wg lk fs buf cl cr fd cd h n (f1 ++ a :: f2)) (mkP m (pre ++ PGot i k a :: post) wg lk fs buf cl cr fd cd h n (f1 ++ f2))
  | PGetNew : forall m pre i k post wg lk fs buf cl cr fd cd h n fr,
      pstep (mkP m (pre ++ PFile i k :: post) wg lk fs buf cl cr fd cd h n fr) (mkP m (pre ++ PGot i k n :: post) wg lk fs buf cl cr fd cd (oput h n (mkOb None None)) (S n) fr)
  (* main.go:226 *)
  | PSetF : forall m pre i k a post wg lk fs buf cl cr fd cd h n fr,
      pstep (mkP m (pre ++ PGot i k a :: post) wg lk fs buf cl cr fd cd h n fr) (mkP m (pre ++ PSet i k a :: post) wg lk fs buf cl cr fd cd (oput h a (mkOb (Some (i, k)) (ob_b (h a)))) n fr)
  (* main.go:227 *)
  | PSetB : forall m pre i k a post wg lk fs buf cl cr fd cd h n fr,
      pstep (mkP m (pre ++ PSet i k a :: post) wg lk fs buf cl cr fd cd h n fr) (mkP m (pre ++ PFull i k a :: post) wg lk fs buf cl cr fd cd (oput h a (mkOb (ob_f (h a)) (Some (i, k)))) n fr)
  (* main.go:228 *)
  | PWriter : forall m pre i k a w post wg lk fs buf cl cr fd cd h n fr, ob_b (h a) = Some w ->
      pstep (mkP m (pre ++ PFull i k a :: post) wg lk fs buf cl cr fd cd h n fr) (mkP m (pre ++ PRows i k a w :: post) wg lk fs buf cl cr fd cd h n fr)
  (* main.go:262 *)
  | PHand : forall m pre i k a w post wg lk fs buf cl cr fd cd h n fr, zlen buf < cleanup_cap ->
      pstep (mkP m (pre ++ PRows i k a w :: post) wg lk fs buf cl cr fd cd h n fr) (mkP m (pre ++ PPlain (WProc i (S k)) :: post) wg lk fs (buf ++ [a]) cl cr fd cd h n fr)
  (* the clean-up goroutine, main.go:94-98 *)
  | PTake : forall m ws wg lk fs a buf cr fd cd h n fr, pstep (mkP m ws wg lk fs (a :: buf) PcRecv cr fd cd h n fr) (mkP m ws wg lk fs buf (PcFlush a) cr fd cd h n fr)
  | PFlush : forall m ws wg lk fs a x buf cr fd cd h n fr, ob_b (h a) = Some x ->
      pstep (mkP m ws wg lk fs buf (PcFlush a) cr fd cd h n fr) (mkP m ws wg lk fs buf (PcClose a) cr (fd ++ [x]) cd h n fr)
  | PClose : forall m ws wg lk fs a x buf cr fd cd h n fr, ob_f (h a) = Some x ->
      pstep (mkP m ws wg lk fs buf (PcClose a) cr fd cd h n fr) (mkP m ws wg lk fs buf (PcPut a) cr fd (cd ++ [x]) h n fr)
  | PPut : forall m ws wg lk fs a buf cr fd cd h n fr,
      pstep (mkP m ws wg lk fs buf (PcPut a) cr fd cd h n fr) (mkP m ws wg lk fs buf PcRecv cr fd cd h n (a :: fr))
  | PDrained : forall m ws wg lk fs cr fd cd h n fr, cleanup_closed m -> pstep (mkP m ws wg lk fs [] PcRecv cr fd cd h n fr) (mkP m ws wg lk fs [] PcDone cr fd cd h n fr)
  (* the pool loses a struct *)
  | PLose : forall m ws wg lk fs buf cl cr fd cd h n f1 a f2,
      pstep (mkP m ws wg lk fs buf cl cr fd cd h n (f1 ++ a :: f2)) (mkP m ws wg lk fs buf cl cr fd cd h n (f1 ++ f2)).
  Definition pstart (nfiles nparallel : nat) (fs0 : list gostr) : pst :=
    mkP (MSend (seq 0 nfiles)) (repeat (PPlain WIdle) nparallel) (Z.of_nat nparallel) false fs0 [] PcRecv [] [] [] (fun _ => mkOb None None) 0 [].
  Inductive psteps : pst -> pst -> Prop :=
  | psteps_refl : forall s, psteps s s
  | psteps_step : forall a b c, psteps a b -> pstep b c -> psteps a c.
  (** a nil pointer: Flush or Close of a struct without writer or file *)
  Definition pnil (s : pst) : Prop :=
    match p_cl s with PcFlush a => ob_b (p_heap s a) = None | PcClose a => ob_f (p_heap s a) = None | _ => False end.
End pooled.

(** * M_disk: what grate2tsv leaves on disk, cmd/grate2tsv/main.go, and how it may end early *)
From Verif Require Export GoBase M_tsv.

(** ** files *)
(** writing data at an offset of a file: what lies between the end of the file and the offset reads
    as zeros *)
Definition write_at (off : Z) (data content : bytes) : bytes :=
  ztake off content ++ repeat 0 (Z.to_nat (off - zlen content)) ++ data ++ zdrop (off + zlen data) content.
Definition path_dec : forall a b : gostr, {a = b} + {a <> b} := list_eq_dec Z.eq_dec.
Definition out_dec : forall x y : nat * nat, {x = y} + {x <> y}.
Proof. decide equality; apply Nat.eq_dec. Defined.
Definition disk : Type := gostr -> option bytes.
Definition dset (d : disk) (p : gostr) (b : bytes) : disk := fun q => if path_dec p q then Some b else d q.
Definition oset (f : nat * nat -> Z) (x : nat * nat) (n : Z) : nat * nat -> Z := fun y => if out_dec x y then n else f y.
(** writing through a handle; the file is there since os.Create, nothing is ever removed *)
Definition dwrite (d : disk) (p : gostr) (off : Z) (data : bytes) : disk :=
  dset d p (write_at off data (match d p with Some c => c | None => [] end)).

(** bufio.NewWriter, main.go:227: its buffer has 4096 bytes.  A Write that does not fit fills the
    buffer and writes all of it, or, the buffer being empty, is itself longer than the buffer and
    goes to the file at once.  So before Flush data reaches the file in pieces of at least 4096
    bytes; which pieces is left open here. *)
Definition bufio_size : Z := 4096.

(** d_off is how much of an output has been written to its file *)
Record dst : Type := mkD { d_g : gst; d_off : nat * nat -> Z; d_disk : disk }.

Section disk.
  Variable jobs : nat -> job.
  (** whether processFile panics on a file, after the outputs of its job: there is no recover, so
      the program ends.  main.go:138, 175-266 *)
  Variable panics : nat -> bool.
  (** whether writes may fail: the results of Write and Flush are not looked at, main.go:95, 252-256 *)
  Variable faulty : bool.
  Definition out_of (x : nat * nat) : option tsvout := nth_error (j_outs (jobs (fst x))) (snd x).
  Definition opath (x : nat * nat) : gostr := match out_of x with Some o => o_path o | None => [] end.
  Definition otext (x : nat * nat) : bytes := match out_of x with Some o => o_data o | None => [] end.
  (** processFile returned: not for a file it panics on *)
  Definition returned (g : gst) : Prop := Forall (fun w => match w with WLock i => panics i = false | _ => True end) (g_ws g).
  Inductive dstep : dst -> dst -> Prop :=
  | DPlain : forall g g' off d, gstep jobs g g' -> g_created g' = g_created g -> g_flushed g' = g_flushed g -> returned g' ->
      dstep (mkD g off d) (mkD g' off d)
  (* os.Create: the file is emptied, main.go:221 *)
  | DCreate : forall g g' off d x, gstep jobs g g' -> g_created g' = g_created g ++ [x] ->
      dstep (mkD g off d) (mkD g' (oset off x 0) (dset d (opath x) []))
  (* Write, when the buffer overflows, main.go:252-256 *)
  | DChunk : forall g off d i k n, In (WSend i k) (g_ws g) -> bufio_size <= n -> off (i, k) + n <= zlen (otext (i, k)) ->
      dstep (mkD g off d) (mkD g (oset off (i, k) (off (i, k) + n)) (dwrite d (opath (i, k)) (off (i, k)) (ztake n (zdrop (off (i, k)) (otext (i, k))))))
  (* Flush, main.go:95 *)
  | DFlush : forall g g' off d x, gstep jobs g g' -> g_flushed g' = g_flushed g ++ [x] ->
      dstep (mkD g off d) (mkD g' (oset off x (zlen (otext x))) (dwrite d (opath x) (off x) (zdrop (off x) (otext x))))
  (* Flush, and only m bytes could be written *)
  | DFail : forall g g' off d x m, faulty = true -> gstep jobs g g' -> g_flushed g' = g_flushed g ++ [x] -> 0 <= m -> off x + m <= zlen (otext x) ->
      dstep (mkD g off d) (mkD g' (oset off x (off x + m)) (dwrite d (opath x) (off x) (ztake m (zdrop (off x) (otext x))))).
  (** a panic ends the program, in whatever state the other goroutines are *)
  Definition dies (s : dst) : Prop := exists i k, In (WProc i k) (g_ws (d_g s)) /\ k = List.length (j_outs (jobs i)) /\ panics i = true.
  Inductive dsteps : dst -> dst -> Prop :=
  | dsteps_refl : forall s, dsteps s s
  | dsteps_step : forall a b c, dsteps a b -> dstep b c -> dsteps a c.
  Definition dstart (nfiles nparallel : nat) (fs0 : list gostr) (d0 : disk) : dst := mkD (gstart nfiles nparallel fs0) (fun _ => 0) d0.
End disk.
(** the files processFile panics on *)
Definition tsv_panics (md5hex : gostr -> gostr) create fl openf (fn : gostr) : bool :=
  match snd (process_file md5hex create fl openf fn) with Panic => true | _ => false end.

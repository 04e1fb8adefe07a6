(** * S_slicereader: a stream as one byte string with a position. *)
From Verif Require Import GoBase M_slicereader.

(** only the last slice may be empty, and there is at least one *)
Definition good_slices (data : list bytes) : Prop :=
  data <> [] /\ forall pre cur post, data = pre ++ cur :: post -> post <> [] -> cur <> [].

(** the position a Seek call asks for *)
Definition seek_target (total pos off whence : Z) : Z :=
  if whence =? SeekStart then off else if whence =? SeekEnd then total + off else pos + off.
(** the calls that are supported: strictly inside the stream, to the start from the start,
    or asking for the current position or the end *)
Definition seek_in_range (total pos off whence : Z) : Prop :=
  0 < seek_target total pos off whence < total \/
  (off = 0 /\ (whence = SeekStart \/ whence = SeekCurrent \/ whence = SeekEnd)).

(** [reaches data s p]: after some calls, reader s over the slices [data] is at position p *)
Inductive reaches (data : list bytes) : sreader -> Z -> Prop :=
| re_new : reaches data (new_sreader data) 0
| re_read : forall s p n b e s', reaches data s p -> 0 < n ->
    sr_read s n = Ok (b, e, s') -> reaches data s' (p + zlen b)
| re_seek : forall fuel s p off wh q s', reaches data s p ->
    seek_in_range (zlen (concat data)) p off wh -> sr_seek fuel s off wh = Ok (q, None, s') ->
    reaches data s' (seek_target (zlen (concat data)) p off wh)
| re_seek_error : forall fuel s p off wh q e s', reaches data s p ->
    sr_seek fuel s off wh = Ok (q, Some e, s') -> reaches data s' p.

(** any reader a caller can have: every slice list, every call, in range or not *)
Inductive reachable_reader (data : list bytes) : sreader -> Prop :=
| rr_new : reachable_reader data (new_sreader data)
| rr_read : forall s n b e s', reachable_reader data s -> 0 <= n ->
    sr_read s n = Ok (b, e, s') -> reachable_reader data s'
| rr_seek : forall fuel s off wh q e s', reachable_reader data s ->
    sr_seek fuel s off wh = Ok (q, e, s') -> reachable_reader data s'.

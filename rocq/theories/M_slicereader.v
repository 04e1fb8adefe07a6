(** * M_slicereader: model of xls/cfb/slicereader.go. *)
From Verif Require Import GoBase.

(** SliceReader, slicereader.go:10-15.  Index and Offset are uint in Go; where the code
    decrements Index below 0 the model has -1, which is out of range for every access, as
    2^64-1 is in Go. *)
Record sreader := mkSR {
  sr_csize : list Z;
  sr_data : list bytes;
  sr_index : Z;
  sr_offset : Z
}.
(** &SliceReader{Data: data} *)
Definition new_sreader (data : list bytes) : sreader := mkSR [] data 0 0.

(** Read(b) with len(b) = n, slicereader.go:18-33: the bytes copied and the error *)
Definition sr_read (s : sreader) (n : Z) : res (bytes * option gerr * sreader) :=
  if zlen (sr_data s) <=? sr_index s then Ok ([], Some EEOF, s)          (* 19-21 *)
  else
    cur <- idx (sr_data s) (sr_index s) ;;
    if (0 <=? sr_offset s) && (sr_offset s <=? zlen cur) then
      let got := ztake n (zdrop (sr_offset s) cur) in                       (* 22: copy *)
      if 0 <? zlen got then                                               (* 23 *)
        let off := sr_offset s + zlen got in
        if off =? zlen cur
        then Ok (got, None, mkSR (sr_csize s) (sr_data s) (sr_index s + 1) 0)  (* 25-28 *)
        else Ok (got, None, mkSR (sr_csize s) (sr_data s) (sr_index s) off)
      else Ok ([], Some EEOF, s)                                          (* 32 *)
    else Panic.                                                           (* slice bounds *)

(** lines 41-46: the cumulative sizes *)
Fixpoint csizes (sz : Z) (data : list bytes) : list Z :=
  match data with
  | [] => []
  | d :: r => sz :: csizes (sz + zlen d) r
  end.

(** the loop of Seek, slicereader.go:82-99 *)
Fixpoint seek_loop (fuel : nat) (s : sreader) (want true_off : Z) : res (Z * sreader) :=
  if true_off =? want then Ok (want, s)                                   (* 82, 100 *)
  else
    match fuel with
    | O => NoFuel
    | S fuel =>
        lo <- idx (sr_csize s) (sr_index s) ;;                            (* 83 *)
        cur <- idx (sr_data s) (sr_index s) ;;
        let hi := lo + zlen cur in                                        (* 84 *)
        if (lo <? want) && (want <? hi)                                   (* 85 *)
        then Ok (want, mkSR (sr_csize s) (sr_data s) (sr_index s) (want - lo))   (* 86-87 *)
        else
          let i := if want <? true_off then sr_index s - 1 else sr_index s + 1 in  (* 90-98 *)
          t <- idx (sr_csize s) i ;;
          seek_loop fuel (mkSR (sr_csize s) (sr_data s) i 0) want t
    end.

(** io.SeekStart, io.SeekCurrent, io.SeekEnd *)
Definition SeekStart : Z := 0.
Definition SeekCurrent : Z := 1.
Definition SeekEnd : Z := 2.

(** Seek, slicereader.go:38-101: the returned position, error and the new reader.  [fuel]
    bounds the loop. *)
Definition sr_seek (fuel : nat) (s : sreader) (offset whence : Z) : res (Z * option gerr * sreader) :=
  let cs := if zlen (sr_csize s) =? zlen (sr_data s) then sr_csize s else csizes 0 (sr_data s) in  (* 39-47 *)
  let s := mkSR cs (sr_data s) (sr_index s) (sr_offset s) in
  s <- (if zlen cs <=? sr_index s then                                    (* 48-51 *)
          last <- idx (sr_data s) (zlen cs - 1) ;;
          Ok (mkSR cs (sr_data s) (zlen cs - 1) (zlen last))
        else Ok s) ;;
  c <- idx cs (sr_index s) ;;
  let t := sr_offset s + c in                                             (* 53 *)
  if (offset =? 0) && (whence =? SeekCurrent) then Ok (t, None, s)        (* 54-57 *)
  else if whence =? SeekStart then
    if offset <? 0 then Ok (-1, Some (ELeaf 2001), s)                     (* 61-63 *)
    else '(p, s) <- seek_loop fuel (mkSR cs (sr_data s) 0 0) offset 0 ;; Ok (p, None, s)
  else if whence =? SeekEnd then
    if 0 <? offset then Ok (-1, Some (ELeaf 2001), s)                     (* 69-71 *)
    else
      last <- idx (sr_data s) (zlen (sr_data s) - 1) ;;
      lc <- idx cs (zlen (sr_data s) - 1) ;;
      let t := zlen last + lc in
      '(p, s) <- seek_loop fuel (mkSR cs (sr_data s) (zlen (sr_data s) - 1) (zlen last)) (offset + t) t ;;
      Ok (p, None, s)
  else '(p, s) <- seek_loop fuel s (offset + t) t ;; Ok (p, None, s).

(** io.ReadAll on a SliceReader: Read with non-empty buffers (of the sizes the caller grows
    to) until io.EOF; every other error ends it. *)
Fixpoint sr_read_all (fuel : nat) (sizes : nat -> Z) (s : sreader) (acc : bytes) : res bytes :=
  match fuel with
  | O => NoFuel
  | S k =>
      '(got, e, s') <- sr_read s (sizes k) ;;
      match e with
      | None => sr_read_all k sizes s' (acc ++ got)
      | Some EEOF => Ok (acc ++ got)
      | Some e => Err e
      end
  end.

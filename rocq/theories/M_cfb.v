(** * M_cfb: model of xls/cfb/cfb.go and xls/cfb/interface.go.

    The file content is a Go slice: ioutil.ReadAll returns a slice whose capacity exceeds its
    length, and d.data[a:b] is bounded by the capacity.  [spare] is that (arbitrary) tail.
    Running out of memory is not modelled. *)
From Verif Require Import GoBase GoUnicode M_slicereader.

(** cfb.go:23-30 *)
Definition secFree : Z := 4294967295.
Definition secEndOfChain : Z := 4294967294.

(** header, cfb.go:33-52, with the fields the code uses.  DIFAT is the list of 109 entries. *)
Record header := mkHdr {
  h_signature : Z; h_class0 : Z; h_class1 : Z; h_minor : Z; h_major : Z; h_byteorder : Z;
  h_shift : Z; h_minishift : Z; h_reserved : bytes; h_numdir : Z; h_numfat : Z;
  h_firstdir : Z; h_cutoff : Z; h_firstminifat : Z; h_numminifat : Z;
  h_firstdifat : Z; h_numdifat : Z; h_difat : list Z
}.
Definition zero_header : header := mkHdr 0 0 0 0 0 0 0 0 (repeat 0 6) 0 0 0 0 0 0 0 0 (repeat 0 109).

(** little-endian fields at an offset *)
Definition rd16 (d : bytes) (off : Z) : Z := match le16 (zdrop off d) with Ok v => v | _ => 0 end.
Definition rd32 (d : bytes) (off : Z) : Z := match le32 (zdrop off d) with Ok v => v | _ => 0 end.
Definition rd64 (d : bytes) (off : Z) : Z := match le64 (zdrop off d) with Ok v => v | _ => 0 end.

(** binary.Read(br, binary.LittleEndian, h), cfb.go:113-114: with fewer than 512 bytes
    io.ReadFull fails and h keeps its zero value (the error is not checked). *)
Definition read_header (d : bytes) : header :=
  if zlen d <? 512 then zero_header
  else mkHdr (rd64 d 0) (rd64 d 8) (rd64 d 16) (rd16 d 24) (rd16 d 26) (rd16 d 28) (rd16 d 30)
         (rd16 d 32) (ztake 6 (zdrop 34 d)) (s32 (rd32 d 40)) (s32 (rd32 d 44)) (rd32 d 48)
         (s32 (rd32 d 56)) (rd32 d 60) (s32 (rd32 d 64)) (rd32 d 68) (s32 (rd32 d 72))
         (map (fun i => rd32 d (76 + 4 * Z.of_nat i)) (seq 0 109)).

(** directory, cfb.go:63-77, with the fields the code uses *)
Record dirent := mkDir {
  de_name : list Z;        (* 32 UTF-16 units *)
  de_namelen : Z;          (* int16 *)
  de_type : Z;
  de_start : Z;            (* int32, used only as uint32: stored as uint32 *)
  de_size : Z
}.
Definition zero_dirent : dirent := mkDir (repeat 0 32) 0 0 0 0.
Definition typeUnknown : Z := 0.
Definition typeStorage : Z := 1.
Definition typeStream : Z := 2.
Definition typeRootStorage : Z := 5.

(** directory.String, cfb.go:79-86 *)
Definition dir_string (e : dirent) : res gostr :=
  if (de_namelen e mod 2 =? 1) || (64 <? de_namelen e)
  then Ok (bs "<invalid utf16 string>")
  else
    u <- substr (de_name e) 0 (Z.quot (de_namelen e) 2) ;;
    let r := utf16_decode u in
    t <- substr r 0 (zlen r - 1) ;;
    Ok (string_of_runes t).

(** Document, cfb.go:89-103 *)
Record document := mkDoc {
  d_data : slice;
  d_header : header;
  d_dir : list dirent;
  d_fat : list Z;
  d_minifat : list Z;
  d_msstart : Z;
  d_mssize : Z
}.

(** int64(1+sid) << SectorShift *)
Definition sec_off (shift sid : Z) : Z := u32 (1 + sid) * 2 ^ shift.

(** the loop reading numFATentries entries from a sector, e.g. cfb.go:176-180: the entries
    and what follows them *)
Fixpoint read_entries (n : nat) (sector : bytes) (acc : list Z) : res (list Z * bytes) :=
  match n with
  | O => Ok (acc, sector)
  | S k =>
      v <- le32 sector ;;
      read_entries k (zdrop 4 sector) (acc ++ [v])
  end.

(** error values *)
Definition EUnableToLoad : gerr := ELeaf 2101.    (* "xls/cfb: unable to load file" *)
Definition ECorrupt : gerr := ELeaf 2102.         (* "ole2: corrupt data format" *)
Definition EIncomplete : gerr := ELeaf 2103.      (* "ole2: incomplete read" *)
Definition EStreamNotFound : gerr := ELeaf 2104.  (* "cfb: stream '%s' not found" *)

(** step 1, cfb.go:165-181: the FAT sectors listed in the header *)
Fixpoint load_fat (data : slice) (shift : Z) (nent : nat) (sids : list Z) (fat : list Z) : res (list Z) :=
  match sids with
  | [] => Ok fat
  | sid :: r =>
      if sid =? secFree then Ok fat                                 (* break *)
      else
        let offs := sec_off shift sid in
        if sl_len data <=? offs then Err EUnableToLoad
        else
          sector <- sl_from data offs ;;
          '(fat, _) <- read_entries nent (dat sector) fat ;;
          load_fat data shift nent r fat
  end.

(** cfb.go:189-208: the entries of one DIFAT sector *)
Fixpoint difat_entries (data : slice) (shift : Z) (nent : nat) (n : nat) (difat : bytes) (fat : list Z)
  : res (list Z * bytes) :=
  match n with
  | O => Ok (fat, difat)
  | S k =>
      sid2 <- le32 difat ;;
      if (sid2 =? secFree) || (sid2 =? secEndOfChain)
      then difat_entries data shift nent k (zdrop 4 difat) fat      (* continue *)
      else
        let offs := sec_off shift sid2 in
        if sl_len data <=? offs then Err EUnableToLoad
        else
          sector <- sl_from data offs ;;
          '(fat, _) <- read_entries nent (dat sector) fat ;;
          difat_entries data shift nent k (zdrop 4 difat) fat
  end.

(** cfb.go:182-212: the chain of DIFAT sectors *)
Fixpoint difat_loop (fuel : nat) (data : slice) (shift : Z) (nent : nat) (sid1 : Z) (fat : list Z) : res (list Z) :=
  if sid1 =? secEndOfChain then Ok fat
  else
    match fuel with
    | O => NoFuel
    | S fuel =>
        sector <- sl_from data (sec_off shift sid1) ;;              (* no range check: 186-187 *)
        '(fat, rest) <- difat_entries data shift nent (nent - 1) (dat sector) fat ;;
        sid1 <- le32 rest ;;
        difat_loop fuel data shift nent sid1 fat
    end.

(** step 2, cfb.go:214-234: the mini FAT *)
Fixpoint minifat_loop (fuel : nat) (data : slice) (shift : Z) (nent : nat) (nummini : Z)
    (sid : Z) (minifat : list Z) : res (list Z) :=
  if sid =? secEndOfChain then Ok minifat
  else
    match fuel with
    | O => NoFuel
    | S fuel =>
        let offs := sec_off shift sid in
        if sl_len data <=? offs then Err EUnableToLoad
        else
          sector <- sl_from data offs ;;
          '(minifat, rest) <- read_entries nent (dat sector) minifat ;;
          if nummini <=? zlen minifat then Ok minifat               (* 228-230 *)
          else
            sid <- le32 rest ;;                                     (* 233 *)
            minifat_loop fuel data shift nent nummini sid minifat
    end.

(** binary.Read of a directory entry (128 bytes), cfb.go:252-257; on a short read the entry
    stays zero.  For major version 3 the size is masked to 32 bits. *)
Definition read_dirent (major : Z) (d : bytes) : dirent :=
  if zlen d <? 128 then zero_dirent
  else mkDir (map (fun i => rd16 d (2 * Z.of_nat i)) (seq 0 32)) (s16 (rd16 d 64))
         (match idx d 66 with Ok t => t | _ => 0 end) (rd32 d 116)
         (if major =? 3 then u32 (rd64 d 120) else rd64 d 120).

(** buildDirs, cfb.go:242-281: at most n entries, stopping at an unused one.  Result: the
    directory, the start and the size of the mini stream. *)
Fixpoint build_dirs (n : nat) (major : Z) (d : bytes) (dir : list dirent) (ms : Z * Z) : list dirent * (Z * Z) :=
  match n with
  | O => (dir, ms)
  | S k =>
      let e := read_dirent major d in
      if de_type e =? typeUnknown then (dir, ms)
      else
        let ms := if de_type e =? typeRootStorage then (de_start e, u32 (de_size e)) else ms in
        build_dirs k major (zdrop 128 d) (dir ++ [e]) ms
  end.

(** load, cfb.go:105-240.  The capacities at lines 162-163 panic when they are negative. *)
Definition load (fuel : nat) (data : slice) : res document :=
  let h := read_header (dat data) in
  if negb (h_signature h =? 16220472316735377360) then Err ENotInFormat
  else if negb (h_byteorder h =? 65534) then Err ENotInFormat
  else if negb ((h_class0 h =? 0) && (h_class1 h =? 0)) then Err ENotInFormat
  else if negb ((h_major h =? 3) || (h_major h =? 4)) then Err (ELeaf 2110)
  else if negb (forallb (Z.eqb 0) (h_reserved h)) then Err (ELeaf 2111)
  else if (h_major h =? 3) && negb (h_shift h =? 9) then Err (ELeaf 2112)
  else if (h_major h =? 3) && negb (h_numdir h =? 0) then Err (ELeaf 2113)
  else if (h_major h =? 4) && negb (h_shift h =? 12) then Err (ELeaf 2112)
  else if negb (h_minishift h =? 6) then Err (ELeaf 2114)
  else if negb (h_cutoff h =? 4096) then Err (ELeaf 2115)
  else
    let nent := Z.to_nat (2 ^ (h_shift h - 2)) in                    (* 160 *)
    if (s32 (1 + h_numfat h) <? 0) || (s32 (1 + h_numminifat h) <? 0) then Panic   (* 162-163 *)
    else
      fat <- load_fat data (h_shift h) nent (h_difat h) [] ;;
      fat <- (if 0 <? h_numdifat h
              then difat_loop fuel data (h_shift h) nent (h_firstdifat h) fat
              else Ok fat) ;;
      minifat <- minifat_loop fuel data (h_shift h) nent (h_numminifat h) (h_firstminifat h) [] ;;
      let '(dir, ms) := build_dirs 4 (h_major h) (zdrop (sec_off (h_shift h) (h_firstdir h)) (dat data)) [] (0, 0) in
      Ok (mkDoc data h dir fat minifat (fst ms) (snd ms)).

(** the sector size and the loop of getStreamReader, cfb.go:289-308 *)
Definition sec_size (d : document) : Z := 2 ^ h_shift (d_header d).
Definition is_end (sid : Z) : bool := (sid =? secEndOfChain) || (sid =? secFree).

Fixpoint stream_loop (fuel : nat) (d : document) (sid size x : Z) (sd : list bytes) : res (Z * list bytes) :=
  if is_end sid then Ok (size, sd)
  else
    match fuel with
    | O => NoFuel
    | S fuel =>
        let offs := sec_off (h_shift (d_header d)) sid in
        if sl_len (d_data d) <? offs then Err ECorrupt
        else
          sl <- sl_range (d_data d) offs (offs + sec_size d) ;;
          let '(out, size) := if size <? sl_len sl then (ztake size (dat sl), 0)
                              else (dat sl, size - sl_len sl) in
          sd <- set_idx sd x out ;;
          if size =? 0 then Ok (size, sd)
          else
            sid <- idx (d_fat d) sid ;;
            stream_loop fuel d sid size (x + 1) sd
    end.

(** getStreamReader, cfb.go:283-314 *)
Definition get_stream_reader (fuel : nat) (d : document) (sid size : Z) : res sreader :=
  let sd := repeat [] (Z.to_nat (1 + size / sec_size d)) in
  '(size, sd) <- stream_loop fuel d sid size 0 sd ;;
  if negb (size =? 0) then Err EIncomplete else Ok (new_sreader sd).

(** the first loop of getMiniStreamReader, cfb.go:324-340: the sectors of the mini stream,
    as slices (they keep their capacity up to the end of the file) *)
Fixpoint root_loop (fuel : nat) (d : document) (fsid fsize x : Z) (sd : list slice) : res (list slice) :=
  if is_end fsid then Ok sd
  else
    match fuel with
    | O => NoFuel
    | S fuel =>
        let offs := sec_off (h_shift (d_header d)) fsid in
        sl <- sl_range (d_data d) offs (offs + sec_size d) ;;
        '(sl, fsize) <- (if fsize <? sl_len sl then (sl' <- sl_to sl fsize ;; Ok (sl', 0))
                        else Ok (sl, fsize - sl_len sl)) ;;
        sd <- set_idx sd x sl ;;
        fsid <- idx (d_fat d) fsid ;;
        root_loop fuel d fsid fsize (x + 1) sd
    end.

(** the second loop, cfb.go:342-360 *)
Definition mini_size (d : document) : Z := 2 ^ h_minishift (d_header d).
Fixpoint mini_loop (fuel : nat) (d : document) (fsd : list slice) (sid size x : Z) (sd : list bytes) : res (list bytes) :=
  if is_end sid then Ok sd
  else
    match fuel with
    | O => NoFuel
    | S fuel =>
        let offs := sid * mini_size d in
        let so := offs / sec_size d in
        let si := offs mod sec_size d in
        data <- idx fsd so ;;
        sl <- sl_range data si (si + mini_size d) ;;
        let '(out, size) := if size <? sl_len sl then (ztake size (dat sl), 0)
                            else (dat sl, size - sl_len sl) in
        sd <- set_idx sd x out ;;
        sid <- idx (d_minifat d) sid ;;
        mini_loop fuel d fsd sid size (x + 1) sd
    end.

(** getMiniStreamReader, cfb.go:316-363 *)
Definition nil_slice : slice := mkSl [] [].
Definition get_mini_stream_reader (fuel : nat) (d : document) (sid size : Z) : res sreader :=
  let fsd := repeat nil_slice (Z.to_nat (1 + d_mssize d / sec_size d)) in
  let sd := repeat [] (Z.to_nat (1 + size / mini_size d)) in
  fsd <- root_loop fuel d (d_msstart d) (d_mssize d) 0 fsd ;;
  sd <- mini_loop fuel d fsd sid size 0 sd ;;
  Ok (new_sreader sd).

(** List, interface.go:24-32 *)
Fixpoint doc_list (dir : list dirent) : res (list gostr) :=
  match dir with
  | [] => Ok []
  | e :: r =>
      if de_type e =? typeStream then
        s <- dir_string e ;;
        l <- doc_list r ;;
        Ok (s :: l)
      else doc_list r
  end.

(** Open, interface.go:35-46 *)
Fixpoint open_loop (fuel : nat) (d : document) (name : gostr) (dir : list dirent) : res sreader :=
  match dir with
  | [] => Err EStreamNotFound
  | e :: r =>
      s <- dir_string e ;;
      if str_eqb s name && (de_type e =? typeStream) then
        if de_size e <? u64 (h_cutoff (d_header d)) then get_mini_stream_reader fuel d (de_start e) (de_size e)
        else if negb (de_size e =? 0) then get_stream_reader fuel d (de_start e) (de_size e)
        else open_loop fuel d name r
      else open_loop fuel d name r
  end.
Definition doc_open (fuel : nat) (d : document) (name : gostr) : res sreader := open_loop fuel d name (d_dir d).

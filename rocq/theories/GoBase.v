(** * GoBase: the fragment of Go semantics used by the model.

    Nothing here models a function of grate itself; these are the Go language and
    standard-library operations the code calls.  They are part of the trusted base. *)
From Coq Require Export Ascii String.
From Coq Require Export ZArith List Bool Lia.
Export ListNotations.
Open Scope Z_scope.

(** ** Results of Go functions

    [Ok v]: normal return (error nil).  [Err e]: error return.  [Panic]: a run-time panic
    (index or slice out of range, failed type assertion, nil call, explicit panic).
    [NoFuel]: a loop of the model ran out of its iteration bound; theorems either exclude
    it or show it for every bound (divergence). *)

(** Errors.  Sentinel errors are compared by identity in Go; [ELeaf n] are all other
    (errors.New / fmt.Errorf / library) errors, [n] standing for their identity. *)
Inductive gerr : Type :=
| ENotInFormat          (* grate.ErrNotInFormat,    errs.go:19 *)
| EUnknownFormat        (* grate.ErrUnknownFormat,  errs.go:22 *)
| EInvalidScanType      (* grate.ErrInvalidScanType, errs.go:15 *)
| EEOF                  (* io.EOF *)
| EUnexpectedEOF        (* io.ErrUnexpectedEOF *)
| ELeaf (n : Z)
| EWrap (es : list gerr).  (* grate.errx, errs.go:24 *)

Inductive res (A : Type) : Type :=
| Ok (a : A)
| Err (e : gerr)
| Panic
| NoFuel.
Arguments Ok {A} a.
Arguments Err {A} e.
Arguments Panic {A}.
Arguments NoFuel {A}.

Definition bind {A B} (m : res A) (f : A -> res B) : res B :=
  match m with
  | Ok a => f a
  | Err e => Err e
  | Panic => Panic
  | NoFuel => NoFuel
  end.

Declare Scope go_scope.
Delimit Scope go_scope with go.
Notation "x <- m ;; k" := (bind m (fun x => k))
  (at level 61, m at next level, right associativity) : go_scope.
Notation "' p <- m ;; k" := (bind m (fun p => k))
  (at level 61, p pattern, m at next level, right associativity) : go_scope.
Open Scope go_scope.

(** ** Bytes, strings *)

Notation bytes := (list Z) (only parsing).     (* []byte: every element in 0..255 *)
Notation gostr := (list Z) (only parsing).     (* string: a byte sequence *)

(** byte string of a literal: Coq reads a literal as its UTF-8 bytes, as Go does *)
Definition bs (s : string) : gostr :=
  map (fun a => Z.of_N (N_of_ascii a)) (list_ascii_of_string s).

Definition is_byte (b : Z) : bool := (0 <=? b) && (b <? 256).
Definition bytes_ok (l : bytes) : Prop := Forall (fun b => 0 <= b < 256) l.

Definition zlen {A} (l : list A) : Z := Z.of_nat (List.length l).

Fixpoint str_eqb (a b : gostr) : bool :=
  match a, b with
  | [], [] => true
  | x :: a', y :: b' => (x =? y) && str_eqb a' b'
  | _, _ => false
  end.

(** Go string comparison a < b (bytewise) *)
Fixpoint str_ltb (a b : gostr) : bool :=
  match a, b with
  | _, [] => false
  | [], _ :: _ => true
  | x :: a', y :: b' => (x <? y) || ((x =? y) && str_ltb a' b')
  end.

(** l[i] *)
Definition idx {A} (l : list A) (i : Z) : res A :=
  if 0 <=? i then
    match nth_error l (Z.to_nat i) with
    | Some x => Ok x
    | None => Panic
    end
  else Panic.

(** l[i] = x *)
Fixpoint upd {A} (l : list A) (n : nat) (x : A) : list A :=
  match l, n with
  | [], _ => []
  | _ :: t, O => x :: t
  | h :: t, S n' => h :: upd t n' x
  end.

Definition set_idx {A} (l : list A) (i : Z) (x : A) : res (list A) :=
  if (0 <=? i) && (i <? zlen l) then Ok (upd l (Z.to_nat i) x) else Panic.

Definition ztake {A} (n : Z) (l : list A) : list A := firstn (Z.to_nat n) l.
Definition zdrop {A} (n : Z) (l : list A) : list A := skipn (Z.to_nat n) l.

(** l[a:b] of a string, or of a slice whose capacity equals its length *)
Definition substr {A} (l : list A) (a b : Z) : res (list A) :=
  if (0 <=? a) && (a <=? b) && (b <=? zlen l)
  then Ok (ztake (b - a) (zdrop a l)) else Panic.

(** ** Byte slices with capacity

    [dat] is what len() sees, [spare] the bytes between len and cap.  s[a:b] is bounded by
    the capacity, s[a:] by the length, s[i] by the length. *)
Record slice : Type := mkSl { dat : bytes; spare : bytes }.

Definition sl_len (s : slice) : Z := zlen (dat s).
Definition sl_full (s : slice) : bytes := dat s ++ spare s.

Definition sl_from (s : slice) (a : Z) : res slice :=        (* s[a:] *)
  if (0 <=? a) && (a <=? sl_len s) then Ok (mkSl (zdrop a (dat s)) (spare s)) else Panic.

Definition sl_range (s : slice) (a b : Z) : res slice :=     (* s[a:b] *)
  if (0 <=? a) && (a <=? b) && (b <=? zlen (sl_full s))
  then Ok (mkSl (ztake (b - a) (zdrop a (sl_full s))) (zdrop b (sl_full s)))
  else Panic.

Definition sl_to (s : slice) (b : Z) : res slice := sl_range s 0 b.  (* s[:b] *)

Definition sl_idx (s : slice) (i : Z) : res Z := idx (dat s) i.       (* s[i] *)

(** ** encoding/binary.LittleEndian readers: panic when the slice is too short *)
Definition le16 (l : bytes) : res Z :=
  match l with
  | b0 :: b1 :: _ => Ok (b0 + 256 * b1)
  | _ => Panic
  end.

Definition le32 (l : bytes) : res Z :=
  match l with
  | b0 :: b1 :: b2 :: b3 :: _ => Ok (b0 + 256 * b1 + 65536 * b2 + 16777216 * b3)
  | _ => Panic
  end.

Definition le64 (l : bytes) : res Z :=
  match l with
  | b0 :: b1 :: b2 :: b3 :: b4 :: b5 :: b6 :: b7 :: _ =>
      Ok (b0 + 256 * (b1 + 256 * (b2 + 256 * (b3 + 256 *
         (b4 + 256 * (b5 + 256 * (b6 + 256 * b7)))))))
  | _ => Panic
  end.

(** binary.LittleEndian.PutUint16 / PutUint32 byte images *)
Definition put16 (x : Z) : bytes := [x mod 256; (x / 256) mod 256].
Definition put32 (x : Z) : bytes :=
  [x mod 256; (x / 256) mod 256; (x / 65536) mod 256; (x / 16777216) mod 256].
Definition put64 (x : Z) : bytes :=
  put32 (x mod 4294967296) ++ put32 (x / 4294967296).

(** fixed-width integer conversions *)
Definition u8  (x : Z) : Z := x mod 256.
Definition u16 (x : Z) : Z := x mod 65536.
Definition u32 (x : Z) : Z := x mod 4294967296.
Definition u64 (x : Z) : Z := x mod 18446744073709551616.
Definition two63 : Z := 9223372036854775808.
Definition maxInt64 : Z := 9223372036854775807.
Definition s64 (x : Z) : Z :=           (* int64(x) for an integer x: two's complement wrap *)
  let y := u64 x in if y <? two63 then y else y - 18446744073709551616.
Definition s32 (x : Z) : Z :=
  let y := u32 x in if y <? 2147483648 then y else y - 4294967296.
Definition s16 (x : Z) : Z :=
  let y := u16 x in if y <? 32768 then y else y - 65536.

(** ** strconv *)

(** strconv.FormatInt(x, 10) / fmt "%d" *)
Fixpoint digits_fuel (fuel : nat) (n : Z) (acc : gostr) : gostr :=
  match fuel with
  | O => acc
  | S k => let acc' := (48 + n mod 10) :: acc in
           if n <? 10 then acc' else digits_fuel k (n / 10) acc'
  end.
Definition utoa (n : Z) : gostr := digits_fuel (S (Z.to_nat (Z.log2 n))) n [].
Definition itoa (n : Z) : gostr := if n <? 0 then 45 :: utoa (- n) else utoa n.

Inductive perr := PNone | PSyntax | PRange.

(** strconv.ParseUint(s, 10, bits): digit by digit, stopping at the first overflow *)
Fixpoint parse_uint_loop (maxv : Z) (n : Z) (s : gostr) : Z * perr :=
  match s with
  | [] => (n, PNone)
  | c :: r =>
      if (48 <=? c) && (c <=? 57) then
        let n1 := n * 10 + (c - 48) in
        if maxv <? n1 then (maxv, PRange) else parse_uint_loop maxv n1 r
      else (0, PSyntax)
  end.
Definition parse_uint (bits : Z) (s : gostr) : Z * perr :=
  match s with [] => (0, PSyntax) | _ => parse_uint_loop (2 ^ bits - 1) 0 s end.

(** strconv.ParseInt(s, 10, bits) *)
Definition parse_int (bits : Z) (s : gostr) : Z * perr :=
  match s with
  | [] => (0, PSyntax)
  | c :: r =>
      let neg := c =? 45 in
      let body := if (c =? 43) || (c =? 45) then r else s in
      let '(un, e) := parse_uint bits body in
      match e with
      | PSyntax => (0, PSyntax)
      | _ =>
          let cutoff := 2 ^ (bits - 1) in
          if negb neg && (cutoff <=? un) then (cutoff - 1, PRange)
          else if neg && (cutoff <? un) then (- cutoff, PRange)
          else ((if neg then - un else un), PNone)
      end
  end.

(** ** strings *)

(** strings.IndexByte / strings.IndexAny for an ASCII set: first index satisfying p, or -1 *)
Fixpoint index_from (p : Z -> bool) (i : Z) (l : gostr) : Z :=
  match l with
  | [] => -1
  | c :: r => if p c then i else index_from p (i + 1) r
  end.
Definition index_where (p : Z -> bool) (l : gostr) : Z := index_from p 0 l.
Definition index_byte (b : Z) (l : gostr) : Z := index_where (Z.eqb b) l.
Definition index_any (set : gostr) (l : gostr) : Z :=
  index_where (fun c => existsb (Z.eqb c) set) l.

(** strings.LastIndexAny for an ASCII set *)
Fixpoint last_index_from (p : Z -> bool) (i : Z) (best : Z) (l : gostr) : Z :=
  match l with
  | [] => best
  | c :: r => last_index_from p (i + 1) (if p c then i else best) r
  end.
Definition last_index_any (set : gostr) (l : gostr) : Z :=
  last_index_from (fun c => existsb (Z.eqb c) set) 0 (-1) l.

Definition contains_any (set l : gostr) : bool := 0 <=? index_any set l.

Fixpoint prefixb (p l : gostr) : bool :=
  match p, l with
  | [], _ => true
  | x :: p', y :: l' => (x =? y) && prefixb p' l'
  | _ :: _, [] => false
  end.

(** strings.Contains *)
Fixpoint containsb (sub l : gostr) : bool :=
  prefixb sub l || match l with [] => false | _ :: r => containsb sub r end.

(** strings.Split(l, sep) for a one-byte separator *)
Fixpoint split_byte (sep : Z) (l : gostr) : list gostr :=
  match l with
  | [] => [[]]
  | c :: r =>
      if c =? sep then [] :: split_byte sep r
      else match split_byte sep r with
           | [] => [[c]]
           | h :: t => (c :: h) :: t
           end
  end.

(** strings.Join(l, sep) *)
Fixpoint join (sep : gostr) (l : list gostr) : gostr :=
  match l with
  | [] => []
  | [x] => x
  | x :: r => x ++ sep ++ join sep r
  end.

(** strings.Replace(l, old, new, 1) for a non-empty old *)
Fixpoint replace1 (old new l : gostr) : gostr :=
  if prefixb old l then new ++ skipn (List.length old) l
  else match l with [] => [] | c :: r => c :: replace1 old new r end.

(** strings.ReplaceAll(l, b, "") for a single byte b *)
Definition remove_byte (b : Z) (l : gostr) : gostr := filter (fun c => negb (c =? b)) l.

(** ASCII part of strings.ToLower.  It is used only in comparisons with ASCII literals
    that contain no letter which is the lower case of a non-ASCII rune, where it agrees
    with the full function. *)
Definition to_lower (l : gostr) : gostr :=
  map (fun c => if (65 <=? c) && (c <=? 90) then c + 32 else c) l.

(** strings.Trim(l, set) for an ASCII set *)
Fixpoint trim_left (p : Z -> bool) (l : gostr) : gostr :=
  match l with
  | [] => []
  | c :: r => if p c then trim_left p r else l
  end.
Definition trim_where (p : Z -> bool) (l : gostr) : gostr :=
  rev (trim_left p (rev (trim_left p l))).
Definition trim_set (set l : gostr) : gostr :=
  trim_where (fun c => existsb (Z.eqb c) set) l.

(** ** association lists for Go maps *)
Fixpoint zfind {A} (k : Z) (m : list (Z * A)) : option A :=
  match m with
  | [] => None
  | (k', v) :: r => if k =? k' then Some v else zfind k r
  end.
Definition zput {A} (k : Z) (v : A) (m : list (Z * A)) : list (Z * A) := (k, v) :: m.

Fixpoint sfind {A} (k : gostr) (m : list (gostr * A)) : option A :=
  match m with
  | [] => None
  | (k', v) :: r => if str_eqb k k' then Some v else sfind k r
  end.
Definition sput {A} (k : gostr) (v : A) (m : list (gostr * A)) : list (gostr * A) := (k, v) :: m.

(** proof engineering only: keep [simpl] from unfolding integer arithmetic *)
Global Arguments Z.add _ _ : simpl never.
Global Arguments Z.sub _ _ : simpl never.
Global Arguments Z.mul _ _ : simpl never.
Global Arguments Z.div _ _ : simpl never.
Global Arguments Z.modulo _ _ : simpl never.
Global Arguments Z.pow _ _ : simpl never.
Global Arguments Z.leb _ _ : simpl never.
Global Arguments Z.ltb _ _ : simpl never.
Global Arguments Z.eqb _ _ : simpl never.
Global Arguments Z.of_nat _ : simpl never.
Global Arguments Z.to_nat _ : simpl never.
Global Arguments Z.opp _ : simpl never.

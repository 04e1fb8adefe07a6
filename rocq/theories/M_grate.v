(** * M_grate: model of package grate (grate.go, errs.go). *)
From Verif Require Import GoBase.

(** the merged-cell placeholders, grate.go:94-104 *)
Definition continue_column_merged : gostr := bs "→".
Definition end_column_merged : gostr := bs "⇥".
Definition continue_row_merged : gostr := bs "↓".
Definition end_row_merged : gostr := bs "⤓".

(** grate.WrapErr, errs.go:39-44.  One error is returned unchanged; any other number of
    errors (including none) is stored in an errx.  Simplification: a nil error among the
    arguments is not representable. *)
Definition wrap_err (es : list gerr) : gerr :=
  match es with
  | [e] => e
  | _ => EWrap es
  end.

(** errx.Unwrap, errs.go:31-36; leaf errors have no Unwrap here. *)
Definition err_unwrap (e : gerr) : option gerr :=
  match e with
  | EWrap (_ :: b :: _) => Some b
  | _ => None
  end.

(** err == target for the error values of the model.  errx holds a slice, so it is not a
    comparable type and errors.Is never finds it equal. *)
Definition same_err (e t : gerr) : bool :=
  match e, t with
  | ENotInFormat, ENotInFormat => true
  | EUnknownFormat, EUnknownFormat => true
  | EInvalidScanType, EInvalidScanType => true
  | EEOF, EEOF => true
  | EUnexpectedEOF, EUnexpectedEOF => true
  | ELeaf a, ELeaf b => a =? b
  | _, _ => false
  end.

(** errors.Is(e, t), used at grate.go:64: compare, unwrap, repeat. *)
Fixpoint errors_is (e t : gerr) : bool :=
  same_err e t ||
  match e with
  | EWrap (_ :: b :: _) => errors_is b t     (* errx.Unwrap, errs.go:31-36 *)
  | _ => false
  end.

(** errx.Error / leaf Error, errs.go:28-30: the first error's text.  [text] gives the text
    of the leaves; errx without errors panics on errs[0]. *)
Fixpoint err_text (text : gerr -> gostr) (e : gerr) : res gostr :=
  match e with
  | EWrap [] => Panic
  | EWrap (a :: _) => err_text text a
  | _ => Ok (text e)
  end.

Section Open.
  (** [W] is the world an opener acts on (file system, logs, pools), [S] the Source type. *)
  Variables W S : Type.

  (** OpenFunc, grate.go:55: the Source returned beside a non-nil error is never looked at
      by Open, so an opener is a function to [res S]. *)
  Definition opener := gostr -> W -> res S * W.

  (** srcOpenTab, grate.go:74-78 *)
  Record src_open_tab := mkTab { tab_name : gostr; tab_pri : Z; tab_op : opener }.

  (** Open, grate.go:58-72 (the Debug logging of lines 67-69 is not modelled). *)
  Fixpoint open_file (table : list src_open_tab) (filename : gostr) (w : W) : res S * W :=
    match table with
    | [] => (Err EUnknownFormat, w)                       (* line 71 *)
    | o :: rest =>
        let '(r, w') := tab_op o filename w in            (* line 60 *)
        match r with
        | Ok src => (Ok src, w')                          (* 61-63 *)
        | Err e => if negb (errors_is e ENotInFormat)     (* 64-66 *)
                   then (Err e, w')
                   else open_file rest filename w'
        | Panic => (Panic, w')
        | NoFuel => (NoFuel, w')
        end
    end.

  (** Register, grate.go:83-92.  [sort_slice] stands for sort.Slice with the comparison of
      lines 88-90: theorems quantify over every function that meets its contract. *)
  Definition register (sort_slice : list src_open_tab -> list src_open_tab)
             (table : list src_open_tab) (name : gostr) (priority : Z) (op : opener)
    : list src_open_tab :=
    sort_slice (table ++ [mkTab name priority op]).
End Open.
Arguments mkTab {W S}.
Arguments tab_name {W S}.
Arguments tab_pri {W S}.
Arguments tab_op {W S}.
Arguments open_file {W S}.
Arguments register {W S}.

(** ContinueColumnMerged etc., grate.go:94-104, as UTF-8 byte strings *)
Definition ContinueColumnMerged : gostr := bs "→".
Definition EndColumnMerged : gostr := bs "⇥".
Definition ContinueRowMerged : gostr := bs "↓".
Definition EndRowMerged : gostr := bs "⤓".

(** * M_heap: cells as slices that share memory, commonxl/cell.go and commonxl/sheet.go.

    M_cell and M_sheet treat a Cell as a value.  Here a Cell is what it is in Go, a slice: the
    number of an array and a length, the capacity being the length of the array (every slice starts
    at index 0).  A heap is a list of arrays; nothing is ever freed. *)
From Verif Require Export GoBase GoFloat M_value M_cell.

Definition heap : Type := list (list goval).
Inductive href : Type := HNil | HAt (a n : nat).
Definition arr (h : heap) (a : nat) : list goval := nth a h [].
Definition h_len (c : href) : nat := match c with HNil => 0 | HAt _ n => n end.
(** the elements of the slice *)
Definition h_read (h : heap) (c : href) : list goval := match c with HNil => [] | HAt a n => firstn n (arr h a) end.

Section heap.
  (** how much more than needed append allocates: any rule *)
  Variable grow : heap -> href -> nat.
  Definition h_alloc (h : heap) (vs : list goval) (extra : nat) : heap * href := (h ++ [vs ++ repeat GNil extra], HAt (List.length h) (List.length vs)).
  (** c[i] = v *)
  Definition h_set (h : heap) (c : href) (i : nat) (v : goval) : res heap :=
    match c with
    | HNil => Panic
    | HAt a n => if (i <? n)%nat then Ok (upd h a (upd (arr h a) i v)) else Panic
    end.
  (** append(c, vs...): in place if the capacity allows *)
  Definition h_append (h : heap) (c : href) (vs : list goval) : heap * href :=
    match c with
    | HNil => h_alloc h vs (grow h c)
    | HAt a n =>
        if (n + List.length vs <=? List.length (arr h a))%nat
        then (upd h a (firstn n (arr h a) ++ vs ++ skipn (n + List.length vs) (arr h a)), HAt a (n + List.length vs))
        else h_alloc h (firstn n (arr h a) ++ vs) (grow h c)
    end.
  (** SetURL, cell.go:66-73 *)
  Definition h_set_url (h : heap) (c : href) (link : gostr) : res (heap * href) :=
    h <- h_set h c 1 (GCType HyperlinkStringCell) ;;
    if (h_len c =? 2)%nat then Ok (h_append h c [GInt KUint16 0; GStr link]) else Ok (h_append h c [GStr link]).
  (** SetFormatNumber, cell.go:306-317; slicing goes up to the capacity *)
  Definition h_set_format (h : heap) (c : href) (f : Z) : res (heap * href) :=
    if f =? 0 then match c with HNil => Panic | HAt a n => if (2 <=? List.length (arr h a))%nat then Ok (h, HAt a 2) else Panic end
    else if (h_len c =? 2)%nat then Ok (h_append h c [GInt KUint16 f])
    else h' <- h_set h c 2 (GInt KUint16 f) ;; Ok (h', c).
  (** Clone, cell.go:101-107 *)
  Definition h_clone (h : heap) (c : href) : heap * href := h_alloc h (h_read h c) 0.

  (** ** programs over variables that hold cells: a sheet's grid (sheet.go:18, filled by Put, Set
      and SetURL, sheet.go:51-107) and what Raw returned (sheet.go:119-126) are such variables *)
  Inductive cop : Type :=
  | CNil                            (* a new variable, a nil cell: make([]Cell, n) *)
  | CNew (vs : list goval)          (* a new variable, NewCell or NewCellWithType *)
  | CPut (i : nat) (vs : list goval)(* variable i becomes a new cell *)
  | CClone (i : nat)                (* a new variable, a clone of variable i *)
  | CFormat (i : nat) (f : Z)       (* SetFormatNumber *)
  | CURL (i : nat) (link : gostr)   (* SetURL *)
  | CSet (i j : nat) (v : goval)    (* cell[j] = v *)
  | CCopy (i : nat).                (* a new variable, variable i assigned to it *)
  Definition hstate : Type := (heap * list href)%type.
  Definition hget (vs : list href) (i : nat) : res href := match nth_error vs i with Some c => Ok c | None => Panic end.
  Definition hstep (s : hstate) (o : cop) : res hstate :=
    let (h, vars) := s in
    match o with
    | CNil => Ok (h, vars ++ [HNil])
    | CNew l => let (h', c') := h_alloc h l (grow h HNil) in Ok (h', vars ++ [c'])
    | CPut i l => c <- hget vars i ;; let (h', c') := h_alloc h l (grow h HNil) in Ok (h', upd vars i c')
    | CClone i => c <- hget vars i ;; let (h', c') := h_clone h c in Ok (h', vars ++ [c'])
    | CFormat i f => c <- hget vars i ;; r <- h_set_format h c f ;; let (h', c') := r in Ok (h', upd vars i c')
    | CURL i l => c <- hget vars i ;; r <- h_set_url h c l ;; let (h', c') := r in Ok (h', upd vars i c')
    | CSet i j v => c <- hget vars i ;; h' <- h_set h c j v ;; Ok (h', vars)
    | CCopy i => c <- hget vars i ;; Ok (h, vars ++ [c])
    end.
  Fixpoint hrun (s : hstate) (ops : list cop) : res hstate :=
    match ops with [] => Ok s | o :: ops => s' <- hstep s o ;; hrun s' ops end.
End heap.

(** ** rows: what Strings returns and who owns it *)
Inductive rop : Type :=
| RNext                                  (* Next *)
| RStrings                               (* a new variable, what Strings returns *)
| RWrite (v j : Z) (s : gostr).          (* element j of variable v is set *)
(** simple/simple.go:36-45: Strings returns the row itself.  Arrays of the rows, the iterator, and
    the variables as numbers of rows *)
Record simple_rows : Type := mkSR { sr_mem : list (list gostr); sr_iter : Z; sr_vars : list Z }.
Fixpoint simple_run (s : simple_rows) (ops : list rop) : res (list (list gostr)) :=
  match ops with
  | [] => Ok []
  | RNext :: ops => simple_run (mkSR (sr_mem s) (sr_iter s + 1) (sr_vars s)) ops
  | RStrings :: ops => row <- idx (sr_mem s) (sr_iter s) ;; outs <- simple_run (mkSR (sr_mem s) (sr_iter s) (sr_vars s ++ [sr_iter s])) ops ;; Ok (row :: outs)
  | RWrite v j x :: ops => a <- idx (sr_vars s) v ;; row <- idx (sr_mem s) a ;; row <- set_idx row j x ;; mem <- set_idx (sr_mem s) a row ;; simple_run (mkSR mem (sr_iter s) (sr_vars s)) ops
  end.
(** commonxl/sheet.go:109-117, 128-176: Strings makes a new slice and fills it from the cells, whose
    texts are given here *)
Record sheet_rows : Type := mkHR { hr_texts : list (list gostr); hr_iter : Z; hr_vars : list (list gostr) }.
Fixpoint sheet_run (s : sheet_rows) (ops : list rop) : res (list (list gostr)) :=
  match ops with
  | [] => Ok []
  | RNext :: ops => sheet_run (mkHR (hr_texts s) (if zlen (hr_texts s) <? hr_iter s + 1 then hr_iter s else hr_iter s + 1) (hr_vars s)) ops
  | RStrings :: ops => row <- idx (hr_texts s) (hr_iter s - 1) ;; outs <- sheet_run (mkHR (hr_texts s) (hr_iter s) (hr_vars s ++ [row])) ops ;; Ok (row :: outs)
  | RWrite v j x :: ops => row <- idx (hr_vars s) v ;; row <- set_idx row j x ;; vars <- set_idx (hr_vars s) v row ;; sheet_run (mkHR (hr_texts s) (hr_iter s) vars) ops
  end.

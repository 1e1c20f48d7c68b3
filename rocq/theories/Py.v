(** Python notions used by the model: results with exceptions, values, the heap
    of list objects, ranges, sequence indexing, sorting. *)
From Coq Require Export List ZArith Lia Bool.
Export ListNotations.
Open Scope Z_scope.

(** Exceptions raised by the modelled code.  [OutOfModel] is not a Python
    exception: it marks behaviours the model does not represent (a storage
    object stored as an array element).  [OutOfFuel] marks an exhausted loop
    bound; theorems show it never appears. *)
Inductive exn :=
| IndexError | ZeroDivisionError | AssertionError | ValueError | TypeError
| AttributeError | NotImplementedError | OutOfModel | OutOfFuel.

Inductive res (A : Type) := Ok (a : A) | Raise (e : exn).
Arguments Ok {A} a.
Arguments Raise {A} e.

Definition bind {A B} (m : res A) (f : A -> res B) : res B :=
  match m with Ok a => f a | Raise e => Raise e end.

Declare Scope res_scope.
Notation "x <- m ;; k" := (bind m (fun x => k))
  (at level 61, m at next level, right associativity) : res_scope.
Notation "' p <- m ;; k" := (bind m (fun p => k))
  (at level 61, p pattern, m at next level, right associativity) : res_scope.
Open Scope res_scope.

(** Python [assert]. *)
Definition assert_ (b : bool) : res unit := if b then Ok tt else Raise AssertionError.

Fixpoint mapM {A B} (f : A -> res B) (l : list A) : res (list B) :=
  match l with
  | [] => Ok []
  | x :: r => y <- f x ;; ys <- mapM f r ;; Ok (y :: ys)
  end.

(** Array elements: None, integers, other atoms, nested lists (tuples and lists
    are not distinguished).  Python [==] is modelled by structural equality. *)
Inductive pyval :=
| VNone | VInt (z : Z) | VAtom (n : N) | VSeq (l : list pyval).

Fixpoint veqb (x y : pyval) {struct x} : bool :=
  match x, y with
  | VNone, VNone => true
  | VInt a, VInt b => a =? b
  | VAtom a, VAtom b => N.eqb a b
  | VSeq l, VSeq m =>
      (fix go (l m : list pyval) {struct l} : bool :=
         match l, m with
         | [], [] => true
         | a :: l', b :: m' => veqb a b && go l' m'
         | _, _ => false
         end) l m
  | _, _ => false
  end.

(** Python [//] and [%]: floor division, remainder with the sign of the divisor,
    which are [Z.div] and [Z.modulo] for a nonzero divisor. *)
Definition pydiv (a b : Z) : res Z := if b =? 0 then Raise ZeroDivisionError else Ok (a / b).
Definition pymod (a b : Z) : res Z := if b =? 0 then Raise ZeroDivisionError else Ok (a mod b).

Definition zlen {A} (l : list A) : Z := Z.of_nat (length l).

(** Sequence access [l[i]] with Python's negative indices. *)
Definition pyget {A} (l : list A) (i : Z) : res A :=
  let j := if i <? 0 then i + zlen l else i in
  if j <? 0 then Raise IndexError
  else match nth_error l (Z.to_nat j) with
       | Some x => Ok x
       | None => Raise IndexError
       end.

Fixpoint set_nth {A} (n : nat) (v : A) (l : list A) : list A :=
  match l, n with
  | [], _ => []
  | _ :: r, O => v :: r
  | x :: r, S m => x :: set_nth m v r
  end.

(** List assignment [l[i] = v] with Python's negative indices. *)
Definition pyset {A} (l : list A) (i : Z) (v : A) : res (list A) :=
  let j := if i <? 0 then i + zlen l else i in
  if (j <? 0) || (zlen l <=? j) then Raise IndexError
  else Ok (set_nth (Z.to_nat j) v l).

(** [l[a:b]] for lists and tuples (step 1). *)
Definition pyclamp (i n : Z) : Z :=
  let j := if i <? 0 then i + n else i in Z.min (Z.max j 0) n.
Definition pyslice_list {A} (l : list A) (a b : Z) : list A :=
  let n := zlen l in
  let i := pyclamp a n in
  let j := pyclamp b n in
  firstn (Z.to_nat (j - i)) (skipn (Z.to_nat i) l).

(** [range(n)] and [range(a, b)]. *)
Definition zseq (n : Z) : list Z := map Z.of_nat (seq 0 (Z.to_nat n)).
Definition zrange (a b : Z) : list Z := map (fun i => a + i) (zseq (b - a)).

(** [itertools.product] of [map range shape]: all indices in row-major order. *)
Fixpoint cart (shape : list Z) : list (list Z) :=
  match shape with
  | [] => [[]]
  | n :: sh => flat_map (fun i => map (cons i) (cart sh)) (zseq n)
  end.

(** Python comparison of integer tuples: lexicographic. *)
Fixpoint lex_leb (a b : list Z) : bool :=
  match a, b with
  | [], _ => true
  | _ :: _, [] => false
  | x :: a', y :: b' => if x <? y then true else if y <? x then false else lex_leb a' b'
  end.

(** Comparison of (tuple, int) pairs. *)
Fixpoint lex_eqb (a b : list Z) : bool :=
  match a, b with
  | [], [] => true
  | x :: a', y :: b' => (x =? y) && lex_eqb a' b'
  | _, _ => false
  end.
Definition pair_leb (p q : list Z * Z) : bool :=
  if lex_eqb (fst p) (fst q) then snd p <=? snd q else lex_leb (fst p) (fst q).

(** [sorted] on such pairs.  The order is total and antisymmetric, so every
    sorting algorithm returns the same list. *)
Fixpoint insert_pair (p : list Z * Z) (l : list (list Z * Z)) : list (list Z * Z) :=
  match l with
  | [] => [p]
  | q :: r => if pair_leb p q then p :: q :: r else q :: insert_pair p r
  end.
Fixpoint sorted_pairs (l : list (list Z * Z)) : list (list Z * Z) :=
  match l with
  | [] => []
  | p :: r => insert_pair p (sorted_pairs r)
  end.

(** [sum(a_*b_ for a_, b_ in zip(a, b))] *)
Fixpoint zdot (a b : list Z) : Z :=
  match a, b with
  | x :: a', y :: b' => x * y + zdot a' b'
  | _, _ => 0
  end.

(** The list objects shared by buffers; an address is the position of a cell. *)
Definition heap := list (list pyval).
Definition cell (h : heap) (a : nat) : res (list pyval) :=
  match nth_error h a with Some l => Ok l | None => Raise OutOfModel end.
Definition alloc (h : heap) (l : list pyval) : nat * heap := (length h, h ++ [l]).

(** Slices, index items and indices. *)
Record pyslice := Sl { sl_start : option Z; sl_stop : option Z; sl_step : option Z }.
Inductive ind := IInt (z : Z) | ISlice (s : pyslice) | INone | IOther.
(** [XItem] is a bare item [s[i]], [XTuple] a tuple (or list) of items. *)
Inductive pyindex := XItem (i : ind) | XTuple (l : list ind).

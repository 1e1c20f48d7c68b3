(** Python's sequence protocol on storages: what [a, b, c = s], [x in s],
    [reversed(s)] and [if s:] do.  gcs/storage.py defines __len__
    (storage.py:291-292), __getitem__ (storage.py:362-370 and 562-577) and, on
    Buffer only, __iter__ (storage.py:588-590); the interpreter does the rest. *)
From Verif Require Import Py SliceTools Basics Storage Enumerate.

(** One step of the iterator of [s], the one with number [k].  Buffer.__iter__:
    storage.py:588-590.  The other classes: s[k], where IndexError ends the
    iteration (storage.py:362-370). *)
Definition next_item (h : heap) (s : storage) (k : Z) : res (option item * heap) :=
  match s with
  | SBuffer b =>
      if k <? bsize b then l <- cell h (baddr b) ;; v <- pyget l (boff b + k) ;; Ok (Some (IVal v), h)
      else Ok (None, h)
  | _ =>
      match getitem h s (XItem (IInt k)) with
      | Ok (it, h1) => Ok (Some it, h1)
      | Raise IndexError => Ok (None, h)
      | Raise e => Raise e
      end
  end.

(** [n] items, starting with number [k]; ValueError when there are fewer.
    Python's own, over storage.py:362-370, 588-590. *)
Fixpoint take_items (n : nat) (k : Z) (h : heap) (s : storage) : res (list item * heap) :=
  match n with
  | O => Ok ([], h)
  | S n' =>
      '(o, h1) <- next_item h s k ;;
      match o with
      | None => Raise ValueError
      | Some it => '(l, h2) <- take_items n' (k + 1) h1 s ;; Ok (it :: l, h2)
      end
  end.

(** a_1, ..., a_n = s: n items, and one more step, which has to end the
    iteration (storage.py:362-370 and 588-590 through the iterator). *)
Definition unpack (n : nat) (h : heap) (s : storage) : res (list item * heap) :=
  '(l, h1) <- take_items n 0 h s ;;
  '(o, h2) <- next_item h1 s (Z.of_nat n) ;;
  match o with None => Ok (l, h2) | Some _ => Raise ValueError end.

(** item == x for a value x that is not an array: Storage.__eq__ returns
    NotImplemented, storage.py:294-297, which makes the comparison False. *)
Definition item_is (it : item) (x : pyval) : bool :=
  match it with IVal v => veqb v x | ISto _ => false end.

(** x in s (no class defines __contains__): the items are compared with x until
    one is equal or the iteration ends.  [None]: not decided within [n] items.
    Python's own, over storage.py:362-370, 588-590. *)
Fixpoint contains (n : nat) (k : Z) (h : heap) (s : storage) (x : pyval) : option (res bool) :=
  match n with
  | O => None
  | S n' =>
      match next_item h s k with
      | Raise e => Some (Raise e)
      | Ok (None, _) => Some (Ok false)
      | Ok (Some it, h1) => if item_is it x then Some (Ok true) else contains n' (k + 1) h1 s x
      end
  end.

(** list(reversed(s)): s[n-1], ..., s[0] for n = len(s), where IndexError ends
    the iteration.  storage.py:291-292, 362-370 and 562-577. *)
Fixpoint backwards (n : nat) (h : heap) (s : storage) : res (list item * heap) :=
  match n with
  | O => Ok ([], h)
  | S n' =>
      match getitem h s (XItem (IInt (Z.of_nat n'))) with
      | Ok (it, h1) => '(l, h2) <- backwards n' h1 s ;; Ok (it :: l, h2)
      | Raise IndexError => Ok ([], h)
      | Raise e => Raise e
      end
  end.
Definition reversed_items (h : heap) (s : storage) : res (list item * heap) :=
  n <- len_of s ;; backwards (Z.to_nat n) h s.

(** if s: no class defines __bool__, so Python asks for len(s),
    storage.py:291-292. *)
Definition truth (s : storage) : res bool := n <- len_of s ;; Ok (negb (n =? 0)).

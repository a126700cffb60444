(** * Model of UnicodeData/UnicodeSet.py

    A [UnicodeSet] object has a single attribute, [self.list], an inversion
    list: a Python list of ints.  A method is modelled as a function from the
    list (and the arguments) to the new list and/or the returned value; the
    sharing of list objects between sets is modelled in UnicodeSetHeap.v. *)
From Coq Require Import ZArith List Bool Lia.
From Verif Require Import Py.
Import ListNotations.
Open Scope Z_scope.

(** UnicodeSet.py:16 *)
Definition HIGH : Z := 0x110000.
(** UnicodeSet.py:19 *)
Definition LOW : Z := 0.

(** UnicodeSet.py:23-37 [_pinCodePoint] *)
Definition pin (cp : Z) : Z :=
  if cp <? LOW then LOW
  else if HIGH - 1 <? cp then HIGH - 1
  else cp.

(** The list held by a set. *)
Definition uset := list Z.

(** UnicodeSet.py:87-98 the [while True] of [_findCodePoint].  [fuel] bounds the
    number of iterations; [findCodePoint] starts it with the list's length. *)
Fixpoint find_loop (fuel : nat) (l : uset) (cp lo hi : Z) : res Z :=
  match fuel with
  | O => Err OutOfFuel
  | S k =>
      let i := Z.shiftr (lo + hi) 1 in
      if i =? lo then Ok hi
      else
        let* x := py_get l i in
        if cp <? x then find_loop k l cp lo i else find_loop k l cp i hi
  end.

(** UnicodeSet.py:63-98 [_findCodePoint] *)
Definition findCodePoint (l : uset) (cp : Z) : res Z :=
  let* x0 := py_get l 0 in
  if cp <? x0 then Ok 0
  else
    let hi := zlen l - 1 in
    if 0 >=? hi then Ok hi
    else
      let* x := py_get l (hi - 1) in
      if cp >=? x then Ok hi
      else find_loop (length l) l cp 0 hi.

(** [self.list[i]; i += 1] for a list that is only read forwards is modelled by
    the unread suffix of the list: reading an empty suffix is IndexError. *)
Definition pop (l : list Z) : res (Z * list Z) :=
  match l with [] => Err IndexError | x :: r => Ok (x, r) end.

(** UnicodeSet.py:128-210 the loop of [_retainList].  [as_], [bs] are the unread
    suffixes of [self.list] and [other]; [buf] is [buffer] in reverse order.
    A polarity outside 0..3 makes the Python loop spin: out of fuel here. *)
Fixpoint retain_loop (fuel : nat) (buf : list Z) (a : Z) (as_ : list Z) (b : Z) (bs : list Z)
  (polarity : Z) : res (list Z) :=
  match fuel with
  | O => Err OutOfFuel
  | S k =>
      if polarity =? 0 then
        if a <? b then
          let* (a', as') := pop as_ in
          retain_loop k buf a' as' b bs (Z.lxor polarity 1)
        else if b <? a then
          let* (b', bs') := pop bs in
          retain_loop k buf a as_ b' bs' (Z.lxor polarity 2)
        else if a =? HIGH then Ok buf
        else
          let* (a', as') := pop as_ in
          let* (b', bs') := pop bs in
          retain_loop k (a :: buf) a' as' b' bs' (Z.lxor (Z.lxor polarity 1) 2)
      else if polarity =? 3 then
        if a <? b then
          let* (a', as') := pop as_ in
          retain_loop k (a :: buf) a' as' b bs (Z.lxor polarity 1)
        else if b <? a then
          let* (b', bs') := pop bs in
          retain_loop k (b :: buf) a as_ b' bs' (Z.lxor polarity 2)
        else if a =? HIGH then Ok buf
        else
          let* (a', as') := pop as_ in
          let* (b', bs') := pop bs in
          retain_loop k (a :: buf) a' as' b' bs' (Z.lxor (Z.lxor polarity 1) 2)
      else if polarity =? 1 then
        if a <? b then
          let* (a', as') := pop as_ in
          retain_loop k buf a' as' b bs (Z.lxor polarity 1)
        else if b <? a then
          let* (b', bs') := pop bs in
          retain_loop k (b :: buf) a as_ b' bs' (Z.lxor polarity 2)
        else if a =? HIGH then Ok buf
        else
          let* (a', as') := pop as_ in
          let* (b', bs') := pop bs in
          retain_loop k buf a' as' b' bs' (Z.lxor (Z.lxor polarity 1) 2)
      else if polarity =? 2 then
        if b <? a then
          let* (b', bs') := pop bs in
          retain_loop k buf a as_ b' bs' (Z.lxor polarity 2)
        else if a <? b then
          let* (a', as') := pop as_ in
          retain_loop k (a :: buf) a' as' b bs (Z.lxor polarity 1)
        else if a =? HIGH then Ok buf
        else
          let* (a', as') := pop as_ in
          let* (b', bs') := pop bs in
          retain_loop k buf a' as' b' bs' (Z.lxor (Z.lxor polarity 1) 2)
      else retain_loop k buf a as_ b bs polarity
  end.

(** UnicodeSet.py:100-212 [_retainList] *)
Definition retainList (l other : uset) (polarity : Z) : res uset :=
  let* (a, as_) := pop l in
  let* (b, bs) := pop other in
  let* buf := retain_loop (length l + length other) [] a as_ b bs polarity in
  Ok (rev (HIGH :: buf)).

(** UnicodeSet.py:242-333 the loop of [_addList]; conventions as for
    [retain_loop].  [buffer[-1]] is the head of [buf], [buffer.pop()] removes it. *)
Fixpoint add_loop (fuel : nat) (buf : list Z) (a : Z) (as_ : list Z) (b : Z) (bs : list Z)
  (polarity : Z) : res (list Z) :=
  match fuel with
  | O => Err OutOfFuel
  | S k =>
      if polarity =? 0 then
        if a <? b then
          (* take a; back up over overlapping ranges in buffer[] *)
          let* (x, as') := pop as_ in
          match buf with
          | t :: buf' =>
              if a <=? t
              then add_loop k buf' (Z.max x t) as' b bs (Z.lxor polarity 1)
              else add_loop k (a :: buf) x as' b bs (Z.lxor polarity 1)
          | [] => add_loop k (a :: buf) x as' b bs (Z.lxor polarity 1)
          end
        else if b <? a then
          let* (x, bs') := pop bs in
          match buf with
          | t :: buf' =>
              if b <? t
              then add_loop k buf' a as_ (Z.max x t) bs' (Z.lxor polarity 2)
              else add_loop k (b :: buf) a as_ x bs' (Z.lxor polarity 2)
          | [] => add_loop k (b :: buf) a as_ x bs' (Z.lxor polarity 2)
          end
        else if a =? HIGH then Ok buf
        else
          (* take a, drop b *)
          let* (x, as') := pop as_ in
          let* (y, bs') := pop bs in
          match buf with
          | t :: buf' =>
              if a <? t
              then add_loop k buf' (Z.max x t) as' y bs' (Z.lxor (Z.lxor polarity 1) 2)
              else add_loop k (a :: buf) x as' y bs' (Z.lxor (Z.lxor polarity 1) 2)
          | [] => add_loop k (a :: buf) x as' y bs' (Z.lxor (Z.lxor polarity 1) 2)
          end
      else if polarity =? 3 then
        if (if b <=? a then a =? HIGH else b =? HIGH) then Ok buf
        else
          let* (x, as') := pop as_ in
          let* (y, bs') := pop bs in
          add_loop k ((if b <=? a then a else b) :: buf) x as' y bs'
                   (Z.lxor (Z.lxor polarity 1) 2)
      else if polarity =? 1 then
        if a <? b then
          let* (x, as') := pop as_ in
          add_loop k (a :: buf) x as' b bs (Z.lxor polarity 1)
        else if b <? a then
          let* (y, bs') := pop bs in
          add_loop k buf a as_ y bs' (Z.lxor polarity 2)
        else if a =? HIGH then Ok buf
        else
          let* (x, as') := pop as_ in
          let* (y, bs') := pop bs in
          add_loop k buf x as' y bs' (Z.lxor (Z.lxor polarity 1) 2)
      else if polarity =? 2 then
        if b <? a then
          let* (y, bs') := pop bs in
          add_loop k (b :: buf) a as_ y bs' (Z.lxor polarity 2)
        else if a <? b then
          let* (x, as') := pop as_ in
          add_loop k buf x as' b bs (Z.lxor polarity 1)
        else if a =? HIGH then Ok buf
        else
          let* (x, as') := pop as_ in
          let* (y, bs') := pop bs in
          add_loop k buf x as' y bs' (Z.lxor (Z.lxor polarity 1) 2)
      else add_loop k buf a as_ b bs polarity
  end.

(** UnicodeSet.py:214-337 [_addList] *)
Definition addList (l other : uset) (polarity : Z) : res uset :=
  let* (a, as_) := pop l in
  let* (b, bs) := pop other in
  let* buf := add_loop (length l + length other) [] a as_ b bs polarity in
  Ok (rev (HIGH :: buf)).

(** UnicodeSet.py:372-388 the loop of [_exclusiveOrList] *)
Fixpoint xor_loop (fuel : nat) (buf : list Z) (a : Z) (as_ : list Z) (b : Z) (bs : list Z)
  : res (list Z) :=
  match fuel with
  | O => Err OutOfFuel
  | S k =>
      if a <? b then
        let* (x, as') := pop as_ in
        xor_loop k (a :: buf) x as' b bs
      else if b <? a then
        let* (y, bs') := pop bs in
        xor_loop k (b :: buf) a as_ y bs'
      else if negb (a =? HIGH) then
        let* (x, as') := pop as_ in
        let* (y, bs') := pop bs in
        xor_loop k buf x as' y bs'
      else Ok (HIGH :: buf)
  end.

(** UnicodeSet.py:339-391 [_exclusiveOrList]; no caller passes a polarity other
    than 0, but the other branch is modelled too (lines 364-369). *)
Definition exclusiveOrList (l other : uset) (polarity : Z) : res uset :=
  let* (a, as_) := pop l in
  let* (b0, bs) := pop other in
  let* b :=
    (if (polarity =? 1) || (polarity =? 2)
     then if b0 =? LOW then py_get other 1 else Ok LOW
     else Ok b0) in
  let* buf := xor_loop (length l + length other + 1) [] a as_ b bs in
  Ok (rev buf).

(** What a mutator returns: the receiver (for chaining) or None. *)
Inductive ret : Type := RSelf | RNone.

(** UnicodeSet.py:393-419 [add] *)
Definition add (l : uset) (cp : Z) : res uset :=
  let* i := findCodePoint l (pin cp) in
  if negb (Z.land i 1 =? 0) then Ok l
  else
    let* x := py_get l i in
    if cp =? x - 1 then
      let* l1 := py_set l i cp in
      let l2 := if cp =? HIGH - 1 then l1 ++ [HIGH] else l1 in
      if i >? 0 then
        let* y := py_get l2 (i - 1) in
        if cp =? y then Ok (py_set_slice l2 (i - 1) (i + 1) []) else Ok l2
      else Ok l2
    else if i >? 0 then
      let* y := py_get l (i - 1) in
      if cp =? y then py_set l (i - 1) (y + 1)
      else Ok (py_set_slice l i i [cp; cp + 1])
    else Ok (py_set_slice l i i [cp; cp + 1]).

(** UnicodeSet.py:421-456 [addRange] *)
Definition addRange (l : uset) (start end_ : Z) : res (uset * ret) :=
  if pin start <? pin end_ then
    let limit := end_ + 1 in
    let slow := let* l' := addList l [start; limit; HIGH] 0 in Ok (l', RSelf) in
    if negb (Z.land (zlen l) 1 =? 0) then
      let* lastLimit := (if zlen l =? 1 then Ok (-2) else py_get l (-2)) in
      if lastLimit <=? start then
        if lastLimit =? start then
          let* l1 := py_set l (-2) limit in
          Ok (if limit =? HIGH then removelast l1 else l1, RNone)
        else
          let* l1 := py_set l (-1) start in
          Ok (if limit <? HIGH then l1 ++ [limit; HIGH] else l1 ++ [HIGH], RNone)
      else slow
    else slow
  else if start =? end_ then
    let* l' := add l start in Ok (l', RSelf)
  else Ok (l, RSelf).

(** UnicodeSet.py:458-465 [addAll] *)
Definition addAll (l other : uset) : res uset := addList l other 0.

(** UnicodeSet.py:467-479 [removeRange] *)
Definition removeRange (l : uset) (start end_ : Z) : res uset :=
  if pin start <? pin end_ then retainList l [start; end_ + 1; HIGH] 2 else Ok l.

(** UnicodeSet.py:481-488 [remove] *)
Definition remove (l : uset) (cp : Z) : res uset := removeRange l cp cp.

(** UnicodeSet.py:490-497 [removeAll] *)
Definition removeAll (l other : uset) : res uset := retainList l other 2.

(** UnicodeSet.py:499-511 [retainRange] *)
Definition retainRange (l : uset) (start end_ : Z) : res uset :=
  if pin start <? pin end_ then retainList l [start; end_ + 1; HIGH] 0 else Ok l.

(** UnicodeSet.py:513-520 [retain] *)
Definition retain (l : uset) (cp : Z) : res uset := retainRange l cp cp.

(** UnicodeSet.py:522-529 [retainAll] *)
Definition retainAll (l other : uset) : res uset := retainList l other 0.

(** UnicodeSet.py:531-546 [complementRange] *)
Definition complementRange (l : uset) (start end_ : Z) : res uset :=
  if pin start <? pin end_ then exclusiveOrList l [start; end_ + 1; HIGH] 0 else Ok l.

(** UnicodeSet.py:548-571 [complement()] *)
Definition complement (l : uset) : res uset :=
  let* x := py_get l 0 in
  if x =? LOW then Ok (py_slice l 1 (zlen l)) else Ok (py_set_slice l 0 0 [LOW]).

(** UnicodeSet.py:564-565 [complement(int)] *)
Definition complement_int (l : uset) (arg : Z) : res uset := complementRange l arg arg.

(** UnicodeSet.py:566-567 [complement(range(start, stop))]; the step is ignored. *)
Definition complement_range (l : uset) (start stop : Z) : res uset :=
  complementRange l start (stop - 1).

(** UnicodeSet.py:573-580 [complementAll] *)
Definition complementAll (l other : uset) : res uset := exclusiveOrList l other 0.

(** UnicodeSet.py:582-585 [clear] *)
Definition clear (l : uset) : uset := [HIGH].

(** UnicodeSet.py:597-599 [contains(int)], also [cp in s] (684-686) *)
Definition contains (l : uset) (arg : Z) : res bool :=
  let* i := findCodePoint l arg in
  Ok (negb (Z.land i 1 =? 0)).

(** UnicodeSet.py:600-604 [contains(range(start, stop))]; the step is ignored. *)
Definition contains_range (l : uset) (start stop : Z) : res bool :=
  let end_ := stop - 1 in
  let* i := findCodePoint l start in
  if negb (Z.land i 1 =? 0) then
    let* x := py_get l i in Ok (end_ <? x)
  else Ok false.

(** UnicodeSet.py:689-708 [__init__], one constructor per argument type *)
Definition new_empty : uset := [HIGH].
Definition new_copy (arg : uset) : uset := arg.
Definition new_int (arg : Z) : uset := [arg; arg + 1; HIGH].
Definition new_range (start stop : Z) : uset := [start; stop; HIGH].

(** UnicodeSet.py:609-617 [union], also [|] (656-658) *)
Definition union (l other : uset) : res uset := addAll (new_copy l) other.
(** UnicodeSet.py:619-627 [intersection], also [&] (660-662) *)
Definition intersection (l other : uset) : res uset := retainAll (new_copy l) other.
(** UnicodeSet.py:629-637 [difference], also [-] (664-666) *)
Definition difference (l other : uset) : res uset := removeAll (new_copy l) other.
(** UnicodeSet.py:639-647 [symmetric_difference], also [^] (668-670) *)
Definition symmetric_difference (l other : uset) : res uset := complementAll (new_copy l) other.

(** UnicodeSet.py:649-651 [__eq__]: comparison of two lists of ints *)
Fixpoint list_eqb (l1 l2 : list Z) : bool :=
  match l1, l2 with
  | [], [] => true
  | x :: r, y :: s => (x =? y) && list_eqb r s
  | _, _ => false
  end.
Definition eq (l other : uset) : bool := list_eqb l other.
(** UnicodeSet.py:653-654 [__ne__] *)
Definition ne (l other : uset) : bool := negb (eq l other).

(** UnicodeSet.py:721-723 [getRangeCount] *)
Definition getRangeCount (l : uset) : Z := zlen l / 2.
(** UnicodeSet.py:725-732 [getRangeStart] *)
Definition getRangeStart (l : uset) (index : Z) : res Z := py_get l (index * 2).
(** UnicodeSet.py:734-741 [getRangeEnd] *)
Definition getRangeEnd (l : uset) (index : Z) : res Z :=
  let* x := py_get l (index * 2 + 1) in Ok (x - 1).

(** [range(start, stop, step)] for a positive step, as a list *)
Definition py_range (start stop step : Z) : list Z :=
  map (fun k => start + Z.of_nat k * step)
      (seq 0 (Z.to_nat ((stop - start + step - 1) / step))).

(** UnicodeSet.py:710-719 [size] *)
Fixpoint size_loop (l : uset) (idx : list Z) (s : Z) : res Z :=
  match idx with
  | [] => Ok s
  | index :: rest =>
      let* start := getRangeStart l index in
      let* end_ := getRangeEnd l index in
      size_loop l rest (s + (end_ - start + 1))
  end.
Definition size (l : uset) : res Z := size_loop l (py_range 0 (getRangeCount l) 1) 0.

(** UnicodeSet.py:743-772 [indexOf]; [None] is Python's None *)
Fixpoint indexOf_loop (l : uset) (cp : Z) (idx : list Z) (n : Z) : res (option Z) :=
  match idx with
  | [] => Ok None
  | i :: rest =>
      let* start := py_get l i in
      if cp <? start then Ok None
      else
        let* limit := py_get l (i + 1) in
        if cp <? limit then Ok (Some (n + cp - start))
        else indexOf_loop l cp rest (n + (limit - start))
  end.
Definition indexOf (l : uset) (cp : Z) : res (option Z) :=
  if (cp <? LOW) || (cp >? HIGH) then Ok None
  else indexOf_loop l cp (py_range 0 (Z.land (zlen l) (Z.lnot 1)) 2) 0.

(** UnicodeSet.py:774-793 [charAt] *)
Fixpoint charAt_loop (l : uset) (idx : list Z) (index : Z) : res (option Z) :=
  match idx with
  | [] => Ok None
  | i :: rest =>
      let* start := py_get l i in
      let* x := py_get l (i + 1) in
      let count := x - start in
      if index <? count then Ok (Some (start + index))
      else charAt_loop l rest (index - count)
  end.
Definition charAt (l : uset) (index : Z) : res (option Z) :=
  if index >=? 0
  then charAt_loop l (py_range 0 (Z.land (zlen l) (Z.lnot 1)) 2) index
  else Ok None.

(** UnicodeSet.py:811-817 [getRanges]; a Python range object is a (start, stop) pair *)
Definition getRanges (l : uset) : res (list (Z * Z)) :=
  mapM (fun i =>
          let* start := py_get l i in
          let* stop := py_get l (i + 1) in
          Ok (start, stop))
       (py_range 0 (zlen l - 1) 2).

(** UnicodeSet.py:819-822 [__iter__]: the sequence of values the generator
    yields for a set that is left alone; SetProgram.v has a loop that changes it. *)
Definition iter (l : uset) : res (list Z) :=
  let* chunks :=
    mapM (fun i =>
            let* start := py_get l i in
            let* stop := py_get l (i + 1) in
            Ok (py_range start stop 1))
         (py_range 0 (zlen l - 1) 2) in
  Ok (concat chunks).

(** Objects of the library in lists, sets and dicts (Python 2.7).  The classes
    with [__eq__] (MEq.v) derive from [object] and define no [__hash__]
    (channel_header.py:75-132, length.py:28-83, file_header.py:32-86,
    file_properties.py:42-86, file_permissions.py:30-88; support/schema.py:
    Validatable derives from object), so Python 2.7 hashes them by address. *)
From Verif Require Import MBase MEq.
Open Scope Z_scope.

(** An object: where it is in memory and what it is.  [VOther i] is told apart by
    its address. *)
Record Thing := mkThing { t_addr : Z; t_value : Value }.

(** [_Py_HashPointer] on a 64 bit machine: the address rotated right by four bits,
    as a signed number; -1 is replaced by -2 *)
Definition hash_pointer (a : Z) : Z :=
  let y := a / 16 + (a mod 16) * 2 ^ 60 in
  let s := if y <? 2 ^ 63 then y else y - 2 ^ 64 in
  if s =? -1 then -2 else s.
(** hash of an int, and of a long of the same value; [big] is the hash of longs
    that are no ints, which is not modelled *)
Definition number_hash (big : Z -> Z) (z : Z) : Z :=
  if (- 2 ^ 63 <=? z) && (z <? 2 ^ 63) then (if z =? -1 then -2 else z) else big z.
Definition py_hash (big : Z -> Z) (t : Thing) : Z :=
  match t_value t with VNumber _ z => number_hash big z | _ => hash_pointer (t_addr t) end.

(** [PyObject_RichCompareBool(u, t, Py_EQ)]: the same object, or equal *)
Definition is_thing (u t : Thing) : bool := t_addr u =? t_addr t.
Definition same_or_equal (u t : Thing) : bool := is_thing u t || py_eq (t_value u) (t_value t).

(** [t in list] *)
Definition list_has (l : list Thing) (t : Thing) : bool := existsb (fun u => same_or_equal u t) l.

(** A set or dict: the entries in the order of insertion.  The probe sequence of
    the hash table visits every entry whose hash is that of the key; an entry
    matches if the hashes are the same and the keys are the same or equal
    (dictobject.c: lookdict, setobject.c: set_lookkey). *)
Definition matches (big : Z -> Z) (t u : Thing) : bool := (py_hash big u =? py_hash big t) && same_or_equal u t.
Definition set_has (big : Z -> Z) (s : list Thing) (t : Thing) : bool := existsb (matches big t) s.
Definition set_add (big : Z -> Z) (s : list Thing) (t : Thing) : list Thing := if set_has big s t then s else s ++ [t].
Definition set_of (big : Z -> Z) (l : list Thing) : list Thing := fold_left (set_add big) l [].
Definition dict_get {V} (big : Z -> Z) (d : list (Thing * V)) (t : Thing) : option V :=
  option_map snd (find (fun e => matches big t (fst e)) d).
Fixpoint dict_put {V} (big : Z -> Z) (d : list (Thing * V)) (t : Thing) (v : V) : list (Thing * V) :=
  match d with
  | [] => [(t, v)]
  | (u, w) :: r => if matches big t u then (u, v) :: r else (u, w) :: dict_put big r t v
  end.

(** Assignments to attributes of the object at address [a]: it is now [v]. *)
Definition changed (a : Z) (v : Value) (t : Thing) : Thing :=
  if t_addr t =? a then mkThing a v else t.

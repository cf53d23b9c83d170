(** Specification for C80: objects by value and objects by identity. *)
From Verif Require Import MBase MEq.
From Verif Require Export SEq MHash.
Open Scope Z_scope.

(** an object of the library or any other object, not a number *)
Definition an_object (t : Thing) : Prop := match t_value t with VNumber _ _ => False | _ => True end.
(** addresses of objects: 64 bit, aligned by the allocator *)
Definition address (a : Z) : Prop := 0 < a < 2 ^ 64 /\ a mod 8 = 0.
(** the objects of a program at one moment: what is at the same address is the
    same; foreign objects are equal exactly if they are the same *)
Definition coherent (l : list Thing) : Prop :=
  (forall t, In t l -> address (t_addr t)) /\
  (forall t u, In t l -> In u l -> t_addr t = t_addr u -> t_value t = t_value u) /\
  (forall t u i, In t l -> In u l -> t_value t = VOther i -> t_value u = VOther i -> t_addr t = t_addr u).
(** a length and an int of its value, where the address of the length happens to
    be hashed to the same number *)
Definition accident (big : Z -> Z) (t u : Thing) : Prop :=
  exists l, t_value t = VLength l /\ t_value u = VNumber false (len_value l) /\
            hash_pointer (t_addr t) = number_hash big (len_value l).
(** two keys a dict takes for one *)
Definition one_key (t u : Thing) : Prop :=
  match t_value t, t_value u with
  | VNumber _ x, VNumber _ y => x = y
  | VNumber _ _, _ | _, VNumber _ _ => False
  | _, _ => t_addr t = t_addr u
  end.
(** no length has the hash of the int of its value *)
Definition no_accident (big : Z -> Z) (l : list Thing) : Prop := forall t u, In t l -> In u l -> ~ accident big t u.
(** the keys of a dict *)
Definition keys {V} (d : list (Thing * V)) : list Thing := map fst d.

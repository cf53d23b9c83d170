(** d7a/system_files/phy_status.py:42-58 with Python's list objects: the two
    default list objects are created once, when the class is defined, and every
    construction extends the list objects it is given in place. *)
From Verif Require Import MBase MPhy MSysFiles.

(** List objects, by number; number 0 is the default argument's object
    (phy_status.py:42). *)
Record Heap := mkHeap { h_ids : list (list ChannelStatusIdentifier); h_noise : list (list Z) }.
Definition heap_initial : Heap := mkHeap [[]] [[]].
Definition ids_at (h : Heap) (r : nat) : list ChannelStatusIdentifier := nth r (h_ids h) [].
Definition noise_at (h : Heap) (r : nat) : list Z := nth r (h_noise h) [].

(** [self]: the two list fields are references *)
Record PhyObj := mkPhyObj
  { po_up : Z; po_rx : Z; po_tx : Z; po_duty : Z; po_len : Z; po_ids : nat; po_noise : nat }.
(** the file as seen now, with the present contents of its lists *)
Definition view (h : Heap) (o : PhyObj) : PhyStatusFile :=
  mkPhyStatus (po_up o) (po_rx o) (po_tx o) (po_duty o) (po_len o)
              (ids_at h (po_ids o)) (noise_at h (po_noise o)).

Fixpoint update {A} (n : nat) (x : A) (l : list A) : list A :=
  match n, l with
  | _, [] => []
  | O, _ :: r => x :: r
  | S k, y :: r => y :: update k x r
  end.

(** [PhyStatusFile(up, rx, tx, duty, n, ids, noise)], phy_status.py:42-58: the
    lists are extended first, the checks come last, so a refused construction
    has extended them as well. *)
Definition construct (h : Heap) (up rx tx duty n : Z) (ri rn : nat) : Heap * res PhyObj :=
  let ids := py_extend csi_default n (ids_at h ri) in
  let noise := py_extend 0 n (noise_at h rn) in
  (mkHeap (update ri ids (h_ids h)) (update rn noise (h_noise h)),
   match mk_phy_status up rx tx duty n ids noise with
   | Ok _ => Ok (mkPhyObj up rx tx duty n ri rn)
   | Err e => Err e
   end).
(** the default arguments *)
Definition construct_default (h : Heap) (up rx tx duty n : Z) : Heap * res PhyObj :=
  construct h up rx tx duty n 0 0.

(** What a program can do: create list objects and construct files, with its
    own lists or the defaults, ignoring refusals. *)
Inductive PhyOp :=
| NewIds (l : list ChannelStatusIdentifier)
| NewNoise (l : list Z)
| Construct (up rx tx duty n : Z) (ids noise : option nat).
Definition ref (r : option nat) : nat := match r with Some k => S k | None => O end.
Definition phy_step (h : Heap) (op : PhyOp) : Heap :=
  match op with
  | NewIds l => mkHeap (h_ids h ++ [l]) (h_noise h)
  | NewNoise l => mkHeap (h_ids h) (h_noise h ++ [l])
  | Construct up rx tx duty n i k => fst (construct h up rx tx duty n (ref i) (ref k))
  end.
Definition phy_run (h : Heap) (ops : list PhyOp) : Heap := fold_left phy_step ops h.

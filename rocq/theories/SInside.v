(** Several threads in one Parser: what to expect. *)
From Verif Require Export SSerial MInside.

(** the Parser as it is now *)
Definition parser_now (w : Inside) : SParser :=
  mkSP (nth (in_cur w) (in_store w) []) (in_skip w) (in_up w) (in_down w) (in_errs w).
(** the bytes given to [parse] *)
Definition given (ls : list InLabel) : list Z :=
  flat_map (fun x => match x with ICall _ msg => msg | IGo _ => [] end) ls.
(** the calls are made one after the other: each returns or raises before the next *)
Inductive one_by_one (lib : bool) : Inside -> list InLabel -> list (nat * list Z) -> Inside -> Prop :=
| obo_nil w : one_by_one lib w [] [] w
| obo_call w i msg k w1 ls calls w2 : inside_run lib w (ICall i msg :: repeat (IGo i) k) = Some w1 ->
    nth_error (in_places w1) i = Some PIdle -> one_by_one lib w1 ls calls w2 ->
    one_by_one lib w (ICall i msg :: repeat (IGo i) k ++ ls) ((i, msg) :: calls) w2.
(** every call is given one byte, as the modem's reader does *)
Definition bytewise (ls : list InLabel) : Prop := Forall (fun x => match x with ICall _ msg => length msg = 1%nat | IGo _ => True end) ls.
(** what they give when made by one thread *)
Fixpoint in_turn (lib : bool) (p : SParser) (calls : list (nat * list Z)) : SParser * list (nat * res PResult) :=
  match calls with
  | [] => (p, [])
  | (i, msg) :: r => let (p1, x) := sparse lib p msg in
                     let (p2, xs) := in_turn lib p1 r in (p2, (i, x) :: xs)
  end.
(** [b] was the content of a buffer of the Parser at some time of the run *)
Definition was_buffered (lib : bool) (w : Inside) (ls : list InLabel) (b : list Z) : Prop :=
  exists pre post v r, ls = pre ++ post /\ inside_run lib w pre = Some v /\ nth_error (in_store v) r = Some b.
(** a message that a whole frame with the right CRC at the beginning of such a buffer carries *)
Definition genuine (lib : bool) (w : Inside) (ls : list InLabel) (t : Z) (m : Msg) : Prop :=
  exists c payload rest k, is_byte c /\ is_byte t /\ is_payload payload
  /\ was_buffered lib w ls (frame c t payload ++ rest) /\ carries (in_skip w) t payload rest m k.
(** such a frame on which the ALP parser fails with an assertion that has no text (C10) *)
Definition poisoned (lib : bool) (w : Inside) (ls : list InLabel) : Prop :=
  exists c t payload rest, is_byte c /\ is_byte t /\ is_payload payload /\ in_skip w = false /\ t <> 4 /\ t <> 5
  /\ was_buffered lib w ls (frame c t payload ++ rest)
  /\ alp_parse (zlen payload) (St 56 (bytes_bits (payload ++ rest))) = Err AssertNoMsg.
(** all messages returned to anybody *)
Definition returned (w : Inside) : list (Z * Msg) :=
  flat_map (fun x => match snd x with Ok r => pr_msgs r | Err _ => [] end) (in_results w).
(** all threads are outside *)
Definition nobody_inside (w : Inside) : Prop := Forall (fun x => x = PIdle) (in_places w).
(** an endless schedule: its first [k] labels *)
Definition first_labels (f : nat -> InLabel) (k : nat) : list InLabel := map f (seq 0 k).
(** thread [i] goes on again and again *)
Definition goes_on (f : nat -> InLabel) (i : nat) : Prop := forall k, exists m, (k <= m)%nat /\ f m = IGo i.
(** the thread has come upon a broken frame and is skipping it *)
Definition skipping (x : Place) : bool :=
  let bad u := match u with UPop _ | UIndex _ | USlice _ _ | ULeft _ => true | _ => false end in
  match x with PIdle => false | PLoad u _ | PHave u _ _ => bad u | PStore _ (NError _) _ => true | PStore _ (NMessage _ _ _) _ => false end.
(** while threads only go on, as told by [is], none is skipping *)
Definition calm (lib : bool) (w : Inside) (is : list nat) : Prop :=
  forall a b v, is = a ++ b -> inside_run lib w (map IGo a) = Some v -> Forall (fun x => skipping x = false) (in_places v).

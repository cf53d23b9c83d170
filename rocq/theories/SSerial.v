(** The serial interface: what a frame is, what a frame carries, what it means
    to feed a receiver. *)
From Verif Require Export SCommand MCrc MSerial.

(** ** Frames: C0, 00, counter, message type, length, two CRC bytes, payload *)
Definition frame (counter mtype : Z) (payload : list Z) : list Z :=
  let (hi, lo) := calculate_crc payload in
  [192; 0; counter; mtype; zlen payload; hi; lo] ++ payload.
Definition is_payload (l : list Z) : Prop := Forall is_byte l /\ zlen l <= 255.

(** [carries skip t payload rest m k]: behind a header with type [t] announcing
    [payload], and followed by [rest], the receiver finds the message [m], which
    takes [k] bytes. *)
Inductive carries (skip : bool) : Z -> list Z -> list Z -> Msg -> nat -> Prop :=
| carries_rebooted payload rest b r : payload ++ rest = b :: r ->
    carries skip 5 payload rest (MInt b) 1
| carries_logging payload rest : carries skip 4 payload rest (MRaw payload) (length payload)
| carries_raw t payload rest : skip = true -> t <> 4 -> t <> 5 ->
    carries skip t payload rest (MRaw payload) (length payload)
| carries_alp t payload rest c k : skip = false -> t <> 4 -> t <> 5 ->
    alp_parse (zlen payload) (St 56 (bytes_bits (payload ++ rest)))
      = Ok (c, St (56 + 8 * k) (bytes_bits (skipn k (payload ++ rest)))) ->
    carries skip t payload rest (MCmd c) k.

(** [decodes skip stream msgs]: [msgs] are the messages of frames found in
    [stream], in this order, none starting before the end of the previous one. *)
Inductive decodes (skip : bool) : list Z -> list (Z * Msg) -> Prop :=
| decodes_nil s : decodes skip s []
| decodes_cons pre c t payload rest m k ms :
    is_byte c -> is_byte t -> is_payload payload -> carries skip t payload rest m k ->
    decodes skip (skipn k (payload ++ rest)) ms ->
    decodes skip (pre ++ frame c t payload ++ rest) ((t, m) :: ms).

(** ** Feeding a receiver: successive [parse] calls, none of which raises;
    [msgs] are all messages returned, [errs] all errors reported *)
Inductive feeds (lib : bool) : SParser -> list (list Z) -> SParser -> list (Z * Msg) -> list PErr -> Prop :=
| feeds_nil p : feeds lib p [] p [] []
| feeds_cons p c p1 r cs p2 ms es : sparse lib p c = (p1, Ok r) -> feeds lib p1 cs p2 ms es ->
    feeds lib p (c :: cs) p2 (pr_msgs r ++ ms) (pr_errors r ++ es).
(** one of the calls raises [e] *)
Inductive feed_raises (lib : bool) : SParser -> list (list Z) -> exn -> Prop :=
| raises_here p c p1 e cs : sparse lib p c = (p1, Err e) -> feed_raises lib p (c :: cs) e
| raises_later p c p1 r cs e : sparse lib p c = (p1, Ok r) -> feed_raises lib p1 cs e ->
    feed_raises lib p (c :: cs) e.

(** ** Sending: successive [build_serial_frame] calls that succeed; [sers] are
    the serializations of the commands given to it *)
Inductive sends : SParser -> list (res (list Z)) -> list (list Z) -> SParser -> Prop :=
| sends_nil p : sends p [] [] p
| sends_cons p a p1 f sers fs p2 : build_serial_frame p a = (p1, Ok f) -> sends p1 sers fs p2 ->
    sends p (a :: sers) (f :: fs) p2.

(** ** Counters *)
Definition counter_after (c : Z) : Z := (c + 1) mod 256.

(** ** Error patterns *)
Fixpoint diff (a b : list bool) : list bool :=
  match a, b with
  | x :: a', y :: b' => xorb x y :: diff a' b'
  | _, _ => []
  end.
Definition weight (l : list bool) : nat := length (filter (fun b => b) l).
Definition burst (n : nat) (l : list bool) : Prop :=
  exists a b c, l = repeat false a ++ b ++ repeat false c /\ (length b <= n)%nat.
(** payload followed by its CRC *)
Definition protected (payload : list Z) : list Z :=
  let (hi, lo) := calculate_crc payload in payload ++ [hi; lo].

(** ** Traffic: frames whose payload carries exactly one message *)
Record Sent := mkSent { s_counter : Z; s_type : Z; s_payload : list Z; s_msg : Msg }.
Definition sent_frame (x : Sent) : list Z := frame (s_counter x) (s_type x) (s_payload x).
Definition sent_ok (skip : bool) (x : Sent) : Prop :=
  is_byte (s_counter x) /\ is_byte (s_type x) /\ is_payload (s_payload x)
  /\ forall rest, Forall is_byte rest -> carries skip (s_type x) (s_payload x) rest (s_msg x) (length (s_payload x)).
Definition wire (l : list Sent) : list Z := flat_map sent_frame l.
Definition delivered (l : list Sent) : list (Z * Msg) := map (fun x => (s_type x, s_msg x)) l.
Definition no_c0 (l : list Z) : Prop := Forall (fun b => b <> 192) l.
(** number of frames whose counter is not the successor of the previous one;
    [prev] is the counter before the first *)
Fixpoint jumps (prev : Z) (l : list Z) : Z :=
  match l with
  | [] => 0
  | c :: r => (if c =? counter_after prev then 0 else 1) + jumps c r
  end.
Definition byte_in (p : SParser) : Prop := Forall is_byte (sp_buf p).

(** the serialization [a], framed as ALP data, carries the message [m] *)
Definition transmits (skip : bool) (a : res (list Z)) (m : Msg) : Prop :=
  exists bs, a = Ok bs /\ is_payload bs
    /\ forall rest, Forall is_byte rest -> carries skip 1 bs rest m (length bs).
(** the receiver [q] expects the counter the sender [s] uses next *)
Definition in_step (s q : SParser) : Prop := counter_after (sp_down q) = sp_up s.

(** Receiving and counting messages. *)
From Coq Require Export Permutation.
From Verif Require Export SCommand SOta MThroughput.

(** the commands filed when the [k]-th turn of the waiting loop begins *)
Definition arrived (received : list Command) (its : list (list Command)) (k : nat) : list Command :=
  received ++ concat (firstn k its).
(** the number last counted when [k] turns are over: that at the beginning of
    the last of them *)
Definition counted (received : list Command) (its : list (list Command)) (k : nat) : Z :=
  match k with O => 0 | S j => zlen (arrived received its j) end.
(** the loop ends after [k] turns: enough was counted for the first time, or
    there is no time left *)
Definition ends_after (count : Z) (received : list Command) (its : list (list Command)) (k : nat) : Prop :=
  (k <= length its)%nat /\ (forall j, (j < k)%nat -> counted received its j < count)
  /\ (count <= counted received its k \/ k = length its).
(** the first action carries data; exactly this payload *)
Definition carries_data (c : Command) : Prop :=
  exists a rest d, c_actions c = a :: rest /\ operand_data (a_op a) = Some d.
Definition carries (payload : list Z) (c : Command) : Prop :=
  exists a rest, c_actions c = a :: rest /\ operand_data (a_op a) = Some payload.
(** messages with a D7 interface status *)
Definition with_status (c : Command) : Prop :=
  exists a o s, c_status c = Some a /\ a_op a = InterfaceStatus o /\ iso_status o = Some s.
(** [l] is some of the messages of [sent], each at most as often as sent *)
Definition no_duplicates (l sent : list Command) : Prop := exists lost, Permutation sent (l ++ lost).
(** [0, 1, ..., n-1] *)
Definition counting (n : nat) : list Z := map Z.of_nat (seq 0 n).
(** size of a message with [n] bytes of payload: tag request, forward action with
    configuration and address, return file data action *)
Definition id_bytes (a : Addressee) : Z :=
  match ad_id_type a with NOID => 0 | NBID => 1 | VID => 2 | UID => 8 end.
Definition message_bytes (n : nat) (conf : Configuration) : Z :=
  2 + (2 + 2 + 2 + id_bytes (cf_addressee conf)) + (3 + (if (n <? 64)%nat then 1 else 2) + Z.of_nat n).
(** a message as a receiving modem reports it *)
Definition received_message (seq : Z) (payload : list Z) : Command :=
  mkCommand [mkAction (Regular false false) (mk_return_file_data (mkData (mkOffset 64 (mkLength 0)) (mkLength (zlen payload)) payload))]
    (Some (mkAction (StatusAct 1) (InterfaceStatus (mkISO 215 (Some
       (mkStatus (mkChannelID (mkCH PN9 NORMAL_RATE BAND_868) 0) 40 80 20 false false false false 0 seq (mkCT 0 0) (mkAddr 1 UID (IdInt 3188) NLS_NONE)))))))
    false None true false None.

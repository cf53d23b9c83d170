(** Two ends that send and receive at the same time. *)
From Verif Require Export SSerial MDuplex.

(** no frame can be built *)
Definition unsendable (ser : res (list Z)) : Prop :=
  (exists e, ser = Err e) \/ (exists a, ser = Ok a /\ 255 < zlen a).
(** [talk ska skb l ma mb]: in the moves [l], A sends commands that carry the messages
    [ma] (to a receiver with mode [skb]) and B sends [mb] (to one with mode [ska]) *)
Inductive talk (ska skb : bool) : list Move -> list Msg -> list Msg -> Prop :=
| talk_nil : talk ska skb [] [] []
| talk_a ser m r ma mb : transmits skb ser m -> talk ska skb r ma mb -> talk ska skb (ASends ser :: r) (m :: ma) mb
| talk_b ser m r ma mb : transmits ska ser m -> talk ska skb r ma mb -> talk ska skb (BSends ser :: r) ma (m :: mb)
| talk_a_refused ser r ma mb : unsendable ser -> talk ska skb r ma mb -> talk ska skb (ASends ser :: r) ma mb
| talk_b_refused ser r ma mb : unsendable ser -> talk ska skb r ma mb -> talk ska skb (BSends ser :: r) ma mb
| talk_a_reads n r ma mb : talk ska skb r ma mb -> talk ska skb (AReads n :: r) ma mb
| talk_b_reads n r ma mb : talk ska skb r ma mb -> talk ska skb (BReads n :: r) ma mb.
(** ALP data frames *)
Definition as_data (l : list Msg) : list (Z * Msg) := map (fun m => (1, m)) l.
(** nothing is buffered; counters are bytes *)
Definition at_rest (p : SParser) : Prop := sp_buf p = [] /\ is_byte (sp_up p) /\ is_byte (sp_down p).
(** what the error counter of a receiver grows by: the first frame counts if the
    counters were not in step before *)
Definition first_jump (sender receiver : SParser) (got : list (Z * Msg)) : Z :=
  if counter_after (sp_down receiver) =? sp_up sender then 0 else match got with [] => 0 | _ => 1 end.

(** The messages that the modem's readers take: property C104. *)
From Verif Require Import SDeliver LDeliver2 LDeliver3 LDeliver4.
Open Scope Z_scope.

(** Apart from taking messages the readers do what C102 says *)
Theorem C104_parts : forall lib p n m ls d, delivery_run lib (delivery_of p n m) ls = Some d ->
  station_run lib (station_of p n m) (station_labels ls) = Some (d_st d).
Proof. exact delivery_parts. Qed.
Print Assumptions C104_parts.
(** However many readers: every reader takes the messages that were returned to it
    once each and in this order.  Those it has not taken it is about to take, in its
    loop, or it has ended *)
Theorem C104_each_once : forall lib p n m ls d i, delivery_run lib (delivery_of p n m) ls = Some d ->
  mine i (returned_to d) = mine i (d_done d) ++ mine i (d_todo d) ++ mine i (d_lost d)
  /\ (mine i (d_todo d) <> [] -> exists c, nth_error (k_threads (st_port (d_st d))) i = Some (KBusy c))
  /\ (mine i (d_lost d) <> [] -> nth_error (k_threads (st_port (d_st d))) i = Some KEnded).
Proof. exact delivery_once. Qed.
Print Assumptions C104_each_once.
Theorem C104_all : forall lib p n m ls d, delivery_run lib (delivery_of p n m) ls = Some d ->
  Permutation (returned_to d) (d_done d ++ d_todo d ++ d_lost d).
Proof. exact delivery_all. Qed.
Print Assumptions C104_all.
(** A message is forgotten only if an exception left the handling of another one *)
Theorem C104_forgotten : forall lib p n m ls d, delivery_run lib (delivery_of p n m) ls = Some d -> d_lost d <> [] ->
  callback_raised lib (delivery_of p n m) ls.
Proof. exact lost_raised. Qed.
Print Assumptions C104_forgotten.
(** As long as there are never two readers at once the messages are taken in the
    order in which one thread would find them in the bytes, each once, and none is
    left out unless it was forgotten *)
Theorem C104_in_order : forall lib p n m ls d, byte_in p -> Forall is_byte (came (port_labels (station_labels ls))) ->
  delivery_run lib (delivery_of p n m) ls = Some d -> alone lib (station_of p n m) (station_labels ls) ->
  exists parsed rest, came (port_labels (station_labels ls)) = parsed ++ rest
  /\ struck_out (map snd (d_done d ++ d_todo d)) (messages (snd (fed lib p parsed)))
  /\ (d_lost d = [] -> map snd (d_done d ++ d_todo d) = messages (snd (fed lib p parsed)))
  /\ (nobody_inside (st_in (d_st d)) -> rest = held (st_port (d_st d)) ++ k_input (st_port (d_st d))).
Proof. exact delivery_in_order. Qed.
Print Assumptions C104_in_order.
(** If one thread of the application calls [stop_reading] and [start_reading] in
    turn this is so; and when [stop_reading] has returned, every message in the bytes
    read so far has been taken, and none is taken until [start_reading] is called *)
Theorem C104_stop_then_start : forall lib p n m ls d, byte_in p -> Forall is_byte (came (port_labels (station_labels ls))) ->
  delivery_run lib (delivery_of p n m) ls = Some d -> in_alternation true (the_calls (station_labels ls)) ->
  exists parsed rest, came (port_labels (station_labels ls)) = parsed ++ rest
  /\ struck_out (map snd (d_done d ++ d_todo d)) (messages (snd (fed lib p parsed)))
  /\ (d_lost d = [] -> map snd (d_done d ++ d_todo d) = messages (snd (fed lib p parsed)))
  /\ (nobody_inside (st_in (d_st d)) -> rest = held (st_port (d_st d)) ++ k_input (st_port (d_st d))).
Proof. exact delivery_alternation. Qed.
Print Assumptions C104_stop_then_start.
Theorem C104_stopped : forall lib p n m ls d before more v, byte_in p -> Forall is_byte (came (port_labels (station_labels ls))) ->
  delivery_run lib (delivery_of p n m) ls = Some d ->
  in_alternation true (the_calls (station_labels ls)) -> the_calls (station_labels ls) = before ++ [KStop (App 0)] ->
  the_call (st_port (d_st d)) (App 0) = Some CNone ->
  delivery_run lib d more = Some v -> starts (port_labels (station_labels more)) = 0%nat ->
  d_done v = d_done d /\ exists parsed, came (port_labels (station_labels ls)) = parsed ++ k_input (st_port (d_st d))
  /\ struck_out (map snd (d_done d)) (messages (snd (fed lib p parsed)))
  /\ (d_lost d = [] -> map snd (d_done d) = messages (snd (fed lib p parsed))).
Proof. exact delivery_stop. Qed.
Print Assumptions C104_stopped.
(** In this case the program also comes to rest unless more bytes arrive or calls
    are made; a reader that has not ended then waits for a byte, and every message in
    the bytes that arrived has been taken, apart from those forgotten *)
Theorem C104_ends : forall lib p n m ls d, byte_in p -> Forall is_byte (came (port_labels (station_labels ls))) ->
  delivery_run lib (delivery_of p n m) ls = Some d -> in_alternation true (the_calls (station_labels ls)) ->
  exists most, forall more v, Forall delivery_program more -> delivery_run lib d more = Some v -> (length more <= most)%nat.
Proof. exact delivery_ends. Qed.
Print Assumptions C104_ends.
Theorem C104_all_taken : forall lib p n m ls d i t, byte_in p -> Forall is_byte (came (port_labels (station_labels ls))) ->
  delivery_run lib (delivery_of p n m) ls = Some d -> in_alternation true (the_calls (station_labels ls)) ->
  (length (k_threads (st_port (d_st d))) <= m)%nat -> delivery_rests lib d ->
  nth_error (k_threads (st_port (d_st d))) i = Some t -> alive_reader t = true ->
  t = KRead /\ d_todo d = []
  /\ struck_out (map snd (d_done d)) (messages (snd (fed lib p (came (port_labels (station_labels ls))))))
  /\ (d_lost d = [] -> map snd (d_done d) = messages (snd (fed lib p (came (port_labels (station_labels ls)))))).
Proof. exact all_handled. Qed.
Print Assumptions C104_all_taken.
(** Whatever the calls: a message is never taken only if its reader's callback is
    in a call of [stop_reading] or [start_reading] that waits for another reader,
    and that one for a byte *)
Theorem C104_never_taken : forall lib p n m ls d x, byte_in p -> Forall is_byte (came (port_labels (station_labels ls))) ->
  delivery_run lib (delivery_of p n m) ls = Some d -> (length (k_threads (st_port (d_st d))) <= m)%nat -> delivery_rests lib d -> In x (d_todo d) ->
  exists c j, nth_error (k_threads (st_port (d_st d))) (fst x) = Some (KBusy c) /\ c <> CNone
  /\ nth_error (k_threads (st_port (d_st d))) j = Some KRead /\ k_input (st_port (d_st d)) = [].
Proof. exact waiting_why. Qed.
Print Assumptions C104_never_taken.
(** Whoever stopped the readers: when none is left and nobody is starting one,
    nothing waits to be taken and nothing is taken until the next [start_reading] *)
Theorem C104_no_reader : forall lib p n m ls d more v, delivery_run lib (delivery_of p n m) ls = Some d -> live (st_port (d_st d)) = 0%nat ->
  ~ starting (st_port (d_st d)) -> delivery_run lib d more = Some v -> starts (port_labels (station_labels more)) = 0%nat ->
  d_todo d = [] /\ d_done v = d_done d.
Proof. exact delivery_quiet. Qed.
Print Assumptions C104_no_reader.
(** One [start_reading] too many, and
    - messages are taken in another order than their frames came, *)
Theorem C104_order_refuted : forall lib sk, exists ls d, delivery_run lib (delivery_of (new_parser sk) 1 2) ls = Some d
  /\ starts (port_labels (station_labels ls)) = 1%nat /\ came (port_labels (station_labels ls)) = frame 1 4 [65] ++ frame 2 4 [66]
  /\ returned_to d = [(0%nat, (4, MRaw [65])); (1%nat, (4, MRaw [66]))] /\ d_done d = [(1%nat, (4, MRaw [66])); (0%nat, (4, MRaw [65]))].
Proof. exact order_lost. Qed.
Print Assumptions C104_order_refuted.
(** - a message is taken after [stop_reading] has returned *)
Theorem C104_after_stop_refuted : forall lib sk, exists ls d v, delivery_run lib (delivery_of (new_parser sk) 1 2) ls = Some d
  /\ the_calls (station_labels ls) = [KStart (App 0); KStop (App 0)] /\ the_call (st_port (d_st d)) (App 0) = Some CNone
  /\ d_done d = [] /\ delivery_step lib d (DNext 0) = Some v /\ d_done v = [(0%nat, (4, MRaw [65]))].
Proof. exact handled_after_stop. Qed.
Print Assumptions C104_after_stop_refuted.
(** With one reader, and nobody calling either, a callback that raises makes a later
    message disappear: two frames in one broken frame *)
Theorem C104_none_forgotten_refuted : forall lib sk, exists ls d, delivery_run lib (delivery_of (new_parser sk) 1 1) ls = Some d
  /\ the_calls (station_labels ls) = [] /\ came (port_labels (station_labels ls)) = [192; 0; 9; 4; 16; 0; 0] ++ frame 1 4 [65] ++ frame 2 4 [66]
  /\ nobody_inside (st_in (d_st d)) /\ sp_buf (parser_now (st_in (d_st d))) = []
  /\ d_done d = [(0%nat, (4, MRaw [65]))] /\ d_todo d = [] /\ d_lost d = [(0%nat, (4, MRaw [66]))].
Proof. exact callback_loses. Qed.
Print Assumptions C104_none_forgotten_refuted.

(** A callback that calls [stop_reading] while the application calls [start_reading]
    hangs, and the next message of its reader is not taken *)
Theorem C104_always_taken_refuted : forall lib sk, exists ls d, delivery_run lib (delivery_of (new_parser sk) 1 3) ls = Some d
  /\ the_calls (station_labels ls) = [KStart (App 0); KStop (Reader 0); KStart (App 0)]
  /\ length (k_threads (st_port (d_st d))) = 3%nat /\ delivery_rests lib d
  /\ d_done d = [(0%nat, (4, MRaw [65]))] /\ d_todo d = [(0%nat, (4, MRaw [66]))].
Proof. exact callback_hangs. Qed.
Print Assumptions C104_always_taken_refuted.

(** The application calls [stop_reading] while the reader is still parsing the last
    byte of a frame; it returns after the message has been taken *)
Definition stop_during : list DeliveryLabel :=
  map DStation (flat_map (fun b => one_byte 0 b 10) [192; 0; 1; 4; 1; 185; 21] ++ map TPort (takes 0 65 ++ [KLoop 0]) ++ repeat (TParse 0) 8
    ++ map TPort [KStop (App 0); KGoOn (App 0); KArrive 192] ++ repeat (TParse 0) 9 ++ map TPort [KGoOn (App 0)])
  ++ [DNext 0] ++ map DStation (map TPort [KDone 0 true; KLoop 0; KGoOn (App 0)]).
Example C104_case_stop : exists d, delivery_run true (delivery_of (new_parser false) 1 1) stop_during = Some d
  /\ in_alternation true (the_calls (station_labels stop_during)) /\ the_calls (station_labels stop_during) = [] ++ [KStop (App 0)]
  /\ the_call (st_port (d_st d)) (App 0) = Some CNone /\ Forall is_byte (came (port_labels (station_labels stop_during)))
  /\ map snd (d_done d) = [(4, MRaw [65])] /\ d_lost d = [] /\ k_input (st_port (d_st d)) = [192]
  /\ live (st_port (d_st d)) = 0%nat.
Proof.
  eexists. split; [vm_compute; reflexivity|]. split; [cbn; auto|]. do 2 (split; [vm_compute; reflexivity|]).
  split; [repeat (constructor; [split; vm_compute; intro; discriminate || reflexivity|]); constructor|].
  do 3 (split; [vm_compute; reflexivity|]). vm_compute; reflexivity.
Qed.
(** Before it is taken the message waits *)
Example C104_case_waits : exists d, delivery_run true (delivery_of (new_parser false) 1 1)
    (map DStation (flat_map (fun b => one_byte 0 b 10) [192; 0; 1; 4; 1; 185; 21] ++ map TPort (takes 0 65 ++ [KLoop 0]) ++ repeat (TParse 0) 17)) = Some d
  /\ d_todo d = [(0%nat, (4, MRaw [65]))] /\ delivery_step true d (DStation (TPort (KDone 0 true))) = None
  /\ delivery_step true d (DStation (TPort (KStop (Reader 0)))) = None.
Proof. eexists. split; [vm_compute; reflexivity|]. split; [vm_compute; reflexivity|]. split; reflexivity. Qed.
(** A callback starts a second reader and then raises *)
Example C104_case_callback : exists d, delivery_run true (delivery_of (new_parser false) 1 2)
    (map DStation (flat_map (fun b => one_byte 0 b 10) [192; 0; 1; 4; 1; 185; 21] ++ map TPort (takes 0 65 ++ [KLoop 0]) ++ repeat (TParse 0) 17)
     ++ [DNext 0] ++ map DStation (map TPort [KStart (Reader 0); KGoOn (Reader 0); KGoOn (Reader 0); KDone 0 false])) = Some d
  /\ k_threads (st_port (d_st d)) = [KEnded; KTop] /\ d_lost d = [] /\ d_todo d = [] /\ d_busy d = [].
Proof. eexists. split; [vm_compute; reflexivity|]. repeat split. Qed.
(** A frame and a half; the reader waits for the other half *)
Definition half_more : list DeliveryLabel :=
  map DStation (flat_map (fun b => one_byte 0 b 10) [192; 0; 1; 4; 1; 185; 21] ++ map TPort (takes 0 65 ++ [KLoop 0]) ++ repeat (TParse 0) 17)
  ++ [DNext 0] ++ map DStation (map TPort [KDone 0 true] ++ flat_map (fun b => one_byte 0 b 10) [192; 0; 2; 4] ++ [TPort (KLoop 0)]).
Example C104_case_rest : exists d, delivery_run true (delivery_of (new_parser false) 1 1) half_more = Some d
  /\ in_alternation true (the_calls (station_labels half_more)) /\ delivery_rests true d
  /\ came (port_labels (station_labels half_more)) = frame 1 4 [65] ++ [192; 0; 2; 4]
  /\ k_threads (st_port (d_st d)) = [KRead] /\ d_done d = [(0%nat, (4, MRaw [65]))] /\ d_lost d = [].
Proof.
  eexists. split; [vm_compute; reflexivity|]. split; [cbn; auto|]. split; [|repeat split].
  intros [[[b|[|[|i]]|[|[|i]] [|]|i|x|x|[[|[|i]]|[|[|i]]]]|[|[|i]]]|[|[|i]]] P; try destruct P; reflexivity.
Qed.

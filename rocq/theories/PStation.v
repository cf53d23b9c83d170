(** The modem's readers with the Parser they share: property C102. *)
From Verif Require Import SStation LStation2 LStation5 LStation6 LStation7 LStation8.
Open Scope Z_scope.

(** What the readers do is as in C100, what happens in the Parser is as in C101,
    and the bytes the Parser is given are those the readers hand over *)
Theorem C102_parts : forall lib p n m ls s, station_run lib (station_of p n m) ls = Some s ->
  port_run (new_port n) (port_labels ls) = Some (st_port s)
  /\ inside_run lib (inside_of p m) (parser_labels (new_port n) ls) = Some (st_in s)
  /\ given (parser_labels (new_port n) ls) = handed (new_port n) (port_labels ls).
Proof. exact station_parts. Qed.
Print Assumptions C102_parts.
(** As long as there are never two readers at once: the bytes are parsed in the
    order in which they came, and the results are those of one thread that gives
    them to [parse] one by one.  At most one byte is in a call of [parse] *)
Theorem C102_in_order : forall lib p n m ls s, byte_in p -> Forall is_byte (came (port_labels ls)) ->
  station_run lib (station_of p n m) ls = Some s -> alone lib (station_of p n m) ls ->
  came (port_labels ls) = handed (new_port n) (port_labels ls) ++ held (st_port s) ++ k_input (st_port s)
  /\ exists back now, handed (new_port n) (port_labels ls) = back ++ now /\ (length now <= 1)%nat
     /\ results s = snd (fed lib p back)
     /\ (nobody_inside (st_in s) -> now = [] /\ parser_now (st_in s) = fst (fed lib p back)).
Proof. exact station_in_order. Qed.
Print Assumptions C102_in_order.
(** This is so if [start_reading] is called only when there is no reader and nobody
    is starting one, *)
Theorem C102_taking_turns : forall lib p n m ls s, byte_in p -> Forall is_byte (came (port_labels ls)) ->
  station_run lib (station_of p n m) ls = Some s -> one_at_a_time lib (station_of p n m) ls ->
  came (port_labels ls) = handed (new_port n) (port_labels ls) ++ held (st_port s) ++ k_input (st_port s)
  /\ exists back now, handed (new_port n) (port_labels ls) = back ++ now /\ (length now <= 1)%nat
     /\ results s = snd (fed lib p back)
     /\ (nobody_inside (st_in s) -> now = [] /\ parser_now (st_in s) = fst (fed lib p back)).
Proof. exact turns_in_order. Qed.
Print Assumptions C102_taking_turns.
(** and if one thread of the application calls [stop_reading] and [start_reading]
    in turn and nobody else calls them; *)
Theorem C102_stop_then_start : forall lib p n m ls s, byte_in p -> Forall is_byte (came (port_labels ls)) ->
  station_run lib (station_of p n m) ls = Some s -> in_alternation true (the_calls ls) ->
  came (port_labels ls) = handed (new_port n) (port_labels ls) ++ held (st_port s) ++ k_input (st_port s)
  /\ exists back now, handed (new_port n) (port_labels ls) = back ++ now /\ (length now <= 1)%nat
     /\ results s = snd (fed lib p back)
     /\ (nobody_inside (st_in s) -> now = [] /\ parser_now (st_in s) = fst (fed lib p back)).
Proof. exact alternation_in_order. Qed.
Print Assumptions C102_stop_then_start.
(** in that case the program also comes to rest after boundedly many steps, unless
    something happens from outside *)
Theorem C102_comes_to_rest : forall lib p n m ls s, byte_in p -> Forall is_byte (came (port_labels ls)) ->
  station_run lib (station_of p n m) ls = Some s -> in_alternation true (the_calls ls) ->
  exists most, forall more v, Forall program_step more -> station_run lib s more = Some v -> (length more <= most)%nat.
Proof. exact alternation_ends. Qed.
Print Assumptions C102_comes_to_rest.
(** A call of [stop_reading] or [start_reading] that is pending when nothing moves
    any more waits for a reader that waits for input; however many readers *)
Theorem C102_nobody_stuck : forall lib p n m ls s x c, byte_in p -> Forall is_byte (came (port_labels ls)) ->
  station_run lib (station_of p n m) ls = Some s -> (length (k_threads (st_port s)) <= m)%nat -> station_rests lib s ->
  the_call (st_port s) x = Some c -> c <> CNone ->
  exists j, nth_error (k_threads (st_port s)) j = Some KRead /\ k_open (st_port s) = true /\ k_cancelled (st_port s) = false /\ k_input (st_port s) = [].
Proof. exact station_rests_waits. Qed.
Print Assumptions C102_nobody_stuck.
(** A reader whose call of [parse] raised calls [parse] no more; its next step ends it *)
Theorem C102_raise_ends : forall lib p n m ls s more v i before e, station_run lib (station_of p n m) ls = Some s ->
  results_of i s = before ++ [Err e] -> station_run lib s more = Some v ->
  results_of i v = results_of i s
  /\ (forall x, nth_error (in_places (st_in v)) i = Some x -> x = PIdle)
  /\ (nth_error (k_threads (st_port v)) i = Some (KBusy CNone) \/ nth_error (k_threads (st_port v)) i = Some KEnded).
Proof. exact raise_ends. Qed.
Print Assumptions C102_raise_ends.
(** and every later reader, one at a time, raises on its first byte *)
Theorem C102_raises_for_ever : forall lib p n m ls s a e b, byte_in p -> Forall is_byte (came (port_labels ls)) ->
  station_run lib (station_of p n m) ls = Some s -> alone lib (station_of p n m) ls ->
  results s = a ++ Err e :: b -> Forall (fun r => r = Err IndexError) b.
Proof. exact station_poison. Qed.
Print Assumptions C102_raises_for_ever.
(** Also with several readers a message is returned only if some buffer of the
    Parser held its whole frame, *)
Theorem C102_whole_frames : forall lib p n m ls s, byte_in p -> Forall is_byte (came (port_labels ls)) ->
  station_run lib (station_of p n m) ls = Some s ->
  forall t msg, In (t, msg) (returned (st_in s)) -> genuine lib (inside_of p m) (parser_labels (new_port n) ls) t msg.
Proof. exact station_genuine. Qed.
Print Assumptions C102_whole_frames.
(** but that need not be a frame that was sent.  One [start_reading] too many, and
    - the frame of a message of type 1 with counter 4 is returned as one of type 4, *)
Theorem C102_other_type_refuted : forall lib sk, exists ls s, station_run lib (station_of (new_parser sk) 1 2) ls = Some s
  /\ starts (port_labels ls) = 1%nat /\ came (port_labels ls) = frame 4 1 [65] /\ nobody_inside (st_in s)
  /\ returned (st_in s) = [(4, MRaw [65])].
Proof. exact other_type. Qed.
Print Assumptions C102_other_type_refuted.
(** - a frame is lost, *)
Theorem C102_lost_refuted : forall lib sk, exists ls s, station_run lib (station_of (new_parser sk) 1 2) ls = Some s
  /\ starts (port_labels ls) = 1%nat /\ came (port_labels ls) = frame 1 4 [65; 66] /\ nobody_inside (st_in s)
  /\ returned (st_in s) = [] /\ sp_buf (parser_now (st_in s)) = [].
Proof. exact lost_swapped. Qed.
Print Assumptions C102_lost_refuted.
(** - a message is returned twice, *)
Theorem C102_twice_refuted : forall lib sk, exists ls s, station_run lib (station_of (new_parser sk) 1 2) ls = Some s
  /\ starts (port_labels ls) = 1%nat /\ came (port_labels ls) = frame 1 4 [65] ++ [192] /\ nobody_inside (st_in s)
  /\ returned (st_in s) = [(4, MRaw [65]); (4, MRaw [65])].
Proof. exact delivered_twice. Qed.
Print Assumptions C102_twice_refuted.
(** - [stop_reading] never returns although both readers keep running and only ten
    bytes ever arrive *)
Theorem C102_never_stops_refuted : forall lib sk, exists f most,
  (forall i, (i < 2)%nat -> forall k, exists n, (k <= n)%nat /\ f n = TParse i)
  /\ forall k, exists s, station_run lib (station_of (new_parser sk) 1 2) (first_steps f k) = Some s
     /\ (starts (port_labels (first_steps f k)) <= 1)%nat
     /\ (exists more, came (port_labels (first_steps f k)) ++ more = [192; 0; 1; 4; 2; 0; 0; 192; 1; 7])
     /\ ((most <= k)%nat -> the_call (st_port s) (App 0) = Some (CJoin 1)).
Proof. exact never_stops. Qed.
Print Assumptions C102_never_stops_refuted.

(** Half of a frame is read, the application stops and starts again, the second
    reader gets the rest *)
Definition interrupted : list StationLabel :=
  flat_map (fun b => one_byte 0 b 10) [192; 0; 1; 4]
  ++ map TPort [KStop (App 0); KGoOn (App 0); KGoOn (App 0); KLoop 0; KGoOn (App 0); KStart (App 0); KGoOn (App 0); KGoOn (App 0); KLoop 1; KLoop 1]
  ++ flat_map (fun b => one_byte 1 b 10) [1; 185; 21] ++ one_byte 1 65 17.
Example C102_case_interrupted : exists s, station_run true (station_of (new_parser false) 1 2) interrupted = Some s
  /\ in_alternation true (the_calls interrupted) /\ Forall is_byte (came (port_labels interrupted))
  /\ came (port_labels interrupted) = frame 1 4 [65] /\ returned (st_in s) = [(4, MRaw [65])] /\ nobody_inside (st_in s).
Proof.
  eexists. split; [vm_compute; reflexivity|]. split; [cbn; auto|].
  split; [repeat (constructor; [split; vm_compute; intro; discriminate || reflexivity|]); constructor|].
  split; [vm_compute; reflexivity|]. split; [vm_compute; reflexivity|]. repeat constructor.
Qed.
(** A call of [stop_reading] that waits for the first reader, and both readers for
    input: another thread called [start_reading] before the first reader looked
    whether to go on *)
Definition waits : list StationLabel :=
  map TPort [KLoop 0; KStop (App 0); KGoOn (App 0); KLoop 0; KStart (App 1); KLoop 0; KGoOn (App 0); KGoOn (App 1); KGoOn (App 1); KLoop 1].
Example C102_case_waits : exists s, station_run true (station_of (new_parser false) 2 2) waits = Some s
  /\ the_call (st_port s) (App 0) = Some (CJoin 0) /\ length (k_threads (st_port s)) = 2%nat /\ station_rests true s.
Proof.
  eexists. split; [vm_compute; reflexivity|]. split; [reflexivity|]. split; [reflexivity|].
  intros [[b|[|[|[|i]]]|[|[|[|i]]] [|]|i|x|x|[[|[|[|i]]]|[|[|[|i]]]]]|[|[|[|i]]]] P; try destruct P; reflexivity.
Qed.
(** A frame on which the ALP parser asserts (C10), a restart, and the next byte *)
Definition restarted : list StationLabel :=
  flat_map (fun b => one_byte 0 b 10) [192; 0; 1; 1; 2; 167; 151; 9] ++ map TPort (takes 0 0 ++ [KLoop 0]) ++ repeat (TParse 0) 8
  ++ map TPort [KDone 0 false; KStop (App 0); KGoOn (App 0); KGoOn (App 0); KGoOn (App 0); KStart (App 0); KGoOn (App 0); KGoOn (App 0)]
  ++ map TPort ([KLoop 1; KLoop 1] ++ takes 1 192 ++ [KLoop 1]) ++ repeat (TParse 1) 8.
Example C102_case_restarted : exists s a, station_run true (station_of (new_parser false) 1 2) restarted = Some s
  /\ in_alternation true (the_calls restarted) /\ came (port_labels restarted) = frame 1 1 [9; 0] ++ [192]
  /\ results s = a ++ Err IndexError :: [Err IndexError]
  /\ results_of 0 s = a ++ [Err IndexError] /\ results_of 1 s = [Err IndexError].
Proof.
  eexists. exists (map (fun left => Ok (mkPR [] 0 left [])) [8; 16; 24; 32; 40; 48; 56; 64]). split; [vm_compute; reflexivity|]. split; [cbn; auto|]. split; [vm_compute; reflexivity|].
  split; [vm_compute; reflexivity|]. split; vm_compute; reflexivity.
Qed.

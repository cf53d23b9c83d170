(** C104: schedules, and messages after a stop. *)
From Coq Require Import Lia Arith.
From Verif Require Import SDeliver SSerial LStation5 LStation7 LStation3 LStation4 LDeliver LDeliver2.
Open Scope Z_scope.

Definition each (l : list StationLabel) : list DeliveryLabel := map DStation l.
(** reader [i] takes and parses a byte, with [k] steps in [parse], and handles one message *)
Definition last_byte (i : nat) (b : Z) (k : nat) : list DeliveryLabel :=
  each (map TPort (takes i b ++ [KLoop i]) ++ repeat (TParse i) k) ++ [DNext i; DStation (TPort (KDone i true))].
Definition swapped_order : list DeliveryLabel :=
  each (second ++ bytes0 [192; 0; 1; 4; 1; 185; 21] ++ tk 0 65 ++ hd 0 ++ ps 0 17
        ++ flat_map (fun b => one_byte 1 b 10) [192; 0; 2; 4; 1; 137; 118])
  ++ last_byte 1 66 17 ++ [DNext 0; DStation (TPort (KDone 0 true))].
Lemma order_lost : forall lib sk, exists ls d, delivery_run lib (delivery_of (new_parser sk) 1 2) ls = Some d
  /\ starts (port_labels (station_labels ls)) = 1%nat /\ came (port_labels (station_labels ls)) = frame 1 4 [65] ++ frame 2 4 [66]
  /\ returned_to d = [(0%nat, (4, MRaw [65])); (1%nat, (4, MRaw [66]))] /\ d_done d = [(1%nat, (4, MRaw [66])); (0%nat, (4, MRaw [65]))].
Proof.
  intros [|] [|]; exists swapped_order; eexists; (split; [vm_compute; reflexivity|]); repeat (split; [vm_compute; reflexivity|]); vm_compute; reflexivity.
Qed.
Definition two_inside : list Z := [192; 0; 9; 4; 16; 0; 0] ++ [192; 0; 1; 4; 1; 185; 21; 65] ++ [192; 0; 2; 4; 1; 137; 118; 66].
Definition raises : list DeliveryLabel :=
  each (flat_map (fun b => one_byte 0 b 10) (removelast two_inside) ++ map TPort (takes 0 66 ++ [KLoop 0]) ++ ps 0 41)
  ++ [DNext 0; DStation (TPort (KDone 0 false))].
Lemma callback_loses : forall lib sk, exists ls d, delivery_run lib (delivery_of (new_parser sk) 1 1) ls = Some d
  /\ the_calls (station_labels ls) = [] /\ came (port_labels (station_labels ls)) = [192; 0; 9; 4; 16; 0; 0] ++ frame 1 4 [65] ++ frame 2 4 [66]
  /\ nobody_inside (st_in (d_st d)) /\ sp_buf (parser_now (st_in (d_st d))) = []
  /\ d_done d = [(0%nat, (4, MRaw [65]))] /\ d_todo d = [] /\ d_lost d = [(0%nat, (4, MRaw [66]))].
Proof.
  intros [|] [|]; exists raises; eexists; (split; [vm_compute; reflexivity|]); do 2 (split; [vm_compute; reflexivity|]);
  (split; [repeat constructor|]); repeat (split; [vm_compute; reflexivity|]); vm_compute; reflexivity.
Qed.
(** a second reader; the first has a message; [stop_reading] waits for the second only *)
Definition stop_early : list DeliveryLabel :=
  each (second ++ bytes0 [192; 0; 1; 4; 1; 185; 21] ++ tk 0 65 ++ hd 0 ++ ps 0 17
        ++ map TPort [KStop (App 0); KGoOn (App 0); KLoop 1; KGoOn (App 0); KGoOn (App 0)]).
Lemma handled_after_stop : forall lib sk, exists ls d v, delivery_run lib (delivery_of (new_parser sk) 1 2) ls = Some d
  /\ the_calls (station_labels ls) = [KStart (App 0); KStop (App 0)] /\ the_call (st_port (d_st d)) (App 0) = Some CNone
  /\ d_done d = [] /\ delivery_step lib d (DNext 0) = Some v /\ d_done v = [(0%nat, (4, MRaw [65]))].
Proof.
  intros [|] [|]; exists stop_early; do 2 eexists; (split; [vm_compute; reflexivity|]); do 3 (split; [vm_compute; reflexivity|]); split; vm_compute; reflexivity.
Qed.

Lemma delivery_alternation lib p n m ls d : byte_in p -> Forall is_byte (came (port_labels (station_labels ls))) ->
  delivery_run lib (delivery_of p n m) ls = Some d -> in_alternation true (the_calls (station_labels ls)) ->
  exists parsed rest, came (port_labels (station_labels ls)) = parsed ++ rest
  /\ struck_out (map snd (d_done d ++ d_todo d)) (messages (snd (fed lib p parsed)))
  /\ (d_lost d = [] -> map snd (d_done d ++ d_todo d) = messages (snd (fed lib p parsed)))
  /\ (nobody_inside (st_in (d_st d)) -> rest = held (st_port (d_st d)) ++ k_input (st_port (d_st d))).
Proof.
  intros B F H A. apply (@delivery_in_order lib p n m ls d B F H). pose proof (@delivery_parts _ _ _ _ _ _ H) as R.
  eapply turns_alone; [exact R|]. eapply alternation_turns; eassumption.
Qed.
Lemma nobody_there lib p n m ls d : delivery_run lib (delivery_of p n m) ls = Some d -> live (st_port (d_st d)) = 0%nat -> nobody_inside (st_in (d_st d)).
Proof.
  intros H L. apply delivery_parts in H. pose proof (LStation.run_matched _ _ _ _ _ H) as M. apply Forall_forall. intros x I.
  apply In_nth_error in I as [i E]. destruct x; try reflexivity; exfalso; pose proof (M i _ E ltac:(discriminate)) as B;
  pose proof (live_none _ _ L B); discriminate.
Qed.
Lemma nothing_held w : live w = 0%nat -> held w = [].
Proof.
  unfold live, held. induction (k_threads w) as [|t r IH]; [reflexivity|]. cbn [filter flat_map]. destruct t; cbn [alive_reader length app]; try discriminate; exact IH.
Qed.
Lemma delivery_stop lib p n m ls d before more v : byte_in p -> Forall is_byte (came (port_labels (station_labels ls))) ->
  delivery_run lib (delivery_of p n m) ls = Some d ->
  in_alternation true (the_calls (station_labels ls)) -> the_calls (station_labels ls) = before ++ [KStop (App 0)] ->
  the_call (st_port (d_st d)) (App 0) = Some CNone ->
  delivery_run lib d more = Some v -> starts (port_labels (station_labels more)) = 0%nat ->
  d_done v = d_done d /\ exists parsed, came (port_labels (station_labels ls)) = parsed ++ k_input (st_port (d_st d))
  /\ struck_out (map snd (d_done d)) (messages (snd (fed lib p parsed)))
  /\ (d_lost d = [] -> map snd (d_done d) = messages (snd (fed lib p parsed))).
Proof.
  intros B F H A E C M S. destruct (@alternation_stopped _ _ _ _ _ _ _ H A E C) as [L N].
  destruct (@delivery_quiet _ _ _ _ _ _ _ _ H L N M S) as [T Dn]. split; [exact Dn|].
  destruct (@delivery_alternation _ _ _ _ _ _ B F H A) as (parsed & rest & Ca & So & Al & Re).
  rewrite (Re (@nobody_there _ _ _ _ _ _ H L)), (nothing_held _ L) in Ca. rewrite T, app_nil_r in *. exists parsed. auto.
Qed.

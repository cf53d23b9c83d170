(** C102: together. *)
From Verif Require Import LInside LInside2 SStation LLink LLife LStation LStation2 LStation3 LStation4 LStation6.
Set Implicit Arguments.

Lemma no_calls more : Forall program_step more -> the_calls more = [].
Proof.
  induction 1 as [|x l P _ IH]; [reflexivity|]. unfold the_calls in *. destruct x as [k|i]; [|exact IH].
  cbn [port_labels flat_map app filter]. destruct k; cbn [program_step own_step] in P; try contradiction; exact IH.
Qed.
Lemma alternation_in_order lib p n m ls s : byte_in p -> Forall is_byte (came (port_labels ls)) ->
  station_run lib (station_of p n m) ls = Some s -> in_alternation true (the_calls ls) ->
  came (port_labels ls) = handed (new_port n) (port_labels ls) ++ held (st_port s) ++ k_input (st_port s)
  /\ exists back now, handed (new_port n) (port_labels ls) = back ++ now /\ (length now <= 1)%nat
     /\ results s = snd (fed lib p back)
     /\ (nobody_inside (st_in s) -> now = [] /\ parser_now (st_in s) = fst (fed lib p back)).
Proof. intros B F R A. eapply station_in_order; eauto. eapply turns_alone; [exact R|]. eapply alternation_turns; eassumption. Qed.
Lemma turns_in_order lib p n m ls s : byte_in p -> Forall is_byte (came (port_labels ls)) ->
  station_run lib (station_of p n m) ls = Some s -> one_at_a_time lib (station_of p n m) ls ->
  came (port_labels ls) = handed (new_port n) (port_labels ls) ++ held (st_port s) ++ k_input (st_port s)
  /\ exists back now, handed (new_port n) (port_labels ls) = back ++ now /\ (length now <= 1)%nat
     /\ results s = snd (fed lib p back)
     /\ (nobody_inside (st_in s) -> now = [] /\ parser_now (st_in s) = fst (fed lib p back)).
Proof. intros B F R A. eapply station_in_order; eauto. eapply turns_alone; eassumption. Qed.
Lemma alternation_ends lib p n m ls s : byte_in p -> Forall is_byte (came (port_labels ls)) ->
  station_run lib (station_of p n m) ls = Some s -> in_alternation true (the_calls ls) ->
  exists most, forall more v, Forall program_step more -> station_run lib s more = Some v -> (length more <= most)%nat.
Proof.
  intros B F R A. destruct (@station_ends lib p n m ls s B F R) as [b H]. exists b. intros more v P Rm. apply (H more v P Rm).
  intros pre post u E Ru.
  assert (Q : station_run lib (station_of p n m) (ls ++ more) = Some v) by (rewrite station_app, R; exact Rm).
  assert (Al : in_alternation true (the_calls (ls ++ more))) by (rewrite the_calls_app, (no_calls P), app_nil_r; exact A).
  pose proof (@turns_alone lib p n m _ _ Q (@alternation_turns lib p n m _ _ Q Al)) as T.
  apply (T (ls ++ pre) post u); [rewrite E, app_assoc; reflexivity|]. rewrite station_app, R. exact Ru.
Qed.
Lemma station_genuine lib p n m ls s : byte_in p -> Forall is_byte (came (port_labels ls)) ->
  station_run lib (station_of p n m) ls = Some s ->
  forall t msg, In (t, msg) (returned (st_in s)) -> genuine lib (inside_of p m) (parser_labels (new_port n) ls) t msg.
Proof.
  intros B F R. destruct (run_parts _ _ _ R) as (A & C & D). cbn [station_of st_port st_in] in *.
  apply (@inside_genuine lib p m _ _ B); [|exact C]. rewrite D. eapply handed_bytes; eassumption.
Qed.
Lemma station_parts lib p n m ls s : station_run lib (station_of p n m) ls = Some s ->
  port_run (new_port n) (port_labels ls) = Some (st_port s)
  /\ inside_run lib (inside_of p m) (parser_labels (new_port n) ls) = Some (st_in s)
  /\ given (parser_labels (new_port n) ls) = handed (new_port n) (port_labels ls).
Proof. intro R. exact (run_parts _ _ _ R). Qed.

(** * After an exception *)
Lemma fed_dead lib : forall bytes p p' x e, byte_in p -> Forall is_byte x -> sparse lib p x = (p', Err e) -> Forall is_byte bytes ->
  Forall (fun r => r = Err IndexError) (snd (fed lib p' bytes)).
Proof.
  induction bytes as [|b bytes IH]; intros p p' x e B X S F; [constructor|]. inversion F as [|? ? Fb Fr]; subst. cbn [fed].
  destruct (@poison_forever lib p x p' e [b] B X S) as (q & Q & _); [constructor; [exact Fb | constructor]|]. rewrite Q.
  destruct (fed lib q bytes) as [q' rs] eqn:E. cbn [snd]. constructor; [reflexivity|].
  pose proof (IH p' q [b] IndexError (@sparse_byte_in _ _ _ _ _ B X S) (Forall_cons b Fb (Forall_nil _)) Q Fr) as R. rewrite E in R. exact R.
Qed.
Lemma fed_poison lib : forall bytes p a e b, byte_in p -> Forall is_byte bytes -> snd (fed lib p bytes) = a ++ Err e :: b ->
  Forall (fun r => r = Err IndexError) b.
Proof.
  induction bytes as [|x bytes IH]; intros p a e b B F E; [destruct a; discriminate|].
  inversion F as [|? ? Fx Fr]; subst. cbn [fed] in E. destruct (sparse lib p [x]) as [p1 r] eqn:S.
  assert (B1 : byte_in p1) by (eapply sparse_byte_in; [exact B | | exact S]; constructor; [exact Fx | constructor]).
  destruct (fed lib p1 bytes) as [p2 rs] eqn:D. cbn [snd] in E. destruct a as [|y a]; injection E as -> ->.
  - change b with (snd (p2, b)). rewrite <- D. eapply fed_dead; [exact B | | exact S | exact Fr]. constructor; [exact Fx | constructor].
  - eapply (IH p1 a e b B1 Fr). rewrite D. reflexivity.
Qed.
Lemma station_poison lib p n m ls s a e b : byte_in p -> Forall is_byte (came (port_labels ls)) ->
  station_run lib (station_of p n m) ls = Some s -> alone lib (station_of p n m) ls ->
  results s = a ++ Err e :: b -> Forall (fun r => r = Err IndexError) b.
Proof.
  intros B F R A E. destruct (@station_in_order lib p n m ls s B F R A) as (_ & back & now & H & _ & Rs & _).
  rewrite Rs in E. eapply fed_poison; [exact B | | exact E].
  destruct (run_parts _ _ _ R) as (Rp & _). pose proof (handed_bytes _ _ Rp F) as Hb. cbn [station_of st_port] in *. rewrite H in Hb.
  apply Forall_app in Hb as [Hb _]. exact Hb.
Qed.

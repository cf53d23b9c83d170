(** C104: the program comes to rest, and then every message has been taken. *)
From Coq Require Import Lia Arith.
From Verif Require Import SDeliver LStation5 LStation LStation2 LStation3 LStation4 LStation6 LStation7 LDeliver LDeliver2 LDeliver3.
Set Implicit Arguments.
Close Scope Z_scope.

Definition nexts (ls : list DeliveryLabel) : nat := length (filter (fun y => match y with DNext _ => true | _ => false end) ls).
Lemma labels_count ls : length ls = length (station_labels ls) + nexts ls.
Proof.
  unfold nexts. induction ls as [|y ls IH]; [reflexivity|]. change (y :: ls) with ([y] ++ ls). rewrite labels_app, !app_length, filter_app, app_length.
  destruct y; cbn; cbn in IH; lia.
Qed.
Lemma nexts_done lib : forall ls d v, delivery_run lib d ls = Some v -> length (d_done v) = length (d_done d) + nexts ls.
Proof.
  induction ls as [|y ls IH]; intros d v H; cbn [delivery_run] in H; [injection H as <-; cbn; lia|].
  destruct (delivery_step lib d y) as [u|] eqn:E; [|discriminate]. rewrite (IH u v H). clear IH H. unfold nexts. cbn [filter].
  destruct d as [s todo dn lost busy]. cbn [delivery_step] in E. destruct y as [x|i].
  - destruct (fits _ x); [|discriminate]. destruct (station_step lib s x) as [s'|]; [|discriminate]. destruct x as [[]|]; injection E as <-; reflexivity.
  - destruct (nth_error (k_threads _) i) as [[| | | |[]|]|]; try discriminate. destruct (nth_error (in_places _) i) as [[]|]; try discriminate.
    destruct (take_first i todo) as [[x r]|]; [|discriminate]. injection E as <-. cbn [d_done length]. rewrite app_length. cbn [length]. lia.
Qed.
Lemma program_labels more : Forall delivery_program more -> Forall program_step (station_labels more).
Proof. intro F. induction F as [|y l P _ IH]; [constructor|]. destruct y as [x|i]; [constructor; assumption | exact IH]. Qed.
Lemma program_came more : Forall program_step more -> came (port_labels more) = [].
Proof.
  induction 1 as [|x l P _ IH]; [reflexivity|]. destruct x as [k|i]; [|exact IH]. change (TPort k :: l) with ([TPort k] ++ l).
  rewrite port_labels_app. unfold came in *. rewrite flat_map_app, IH. destruct k; cbn [program_step own_step] in P; try contradiction; reflexivity.
Qed.
Lemma messages_app a b : messages (a ++ b) = messages a ++ messages b. Proof. apply flat_map_app. Qed.
Lemma messages_fed lib p a b : length (messages (snd (fed lib p a))) <= length (messages (snd (fed lib p (a ++ b)))).
Proof. rewrite fed_app. destruct (fed lib p a) as [p1 x]. destruct (fed lib p1 b) as [p2 y]. cbn [snd]. rewrite messages_app, app_length. lia. Qed.
Lemma came_more lib p n m ls d more v : delivery_run lib (delivery_of p n m) ls = Some d -> delivery_run lib d more = Some v -> Forall delivery_program more ->
  delivery_run lib (delivery_of p n m) (ls ++ more) = Some v
  /\ came (port_labels (station_labels (ls ++ more))) = came (port_labels (station_labels ls))
  /\ the_calls (station_labels (ls ++ more)) = the_calls (station_labels ls).
Proof.
  intros H M F. split; [rewrite delivery_app, H; exact M|]. apply program_labels in F.
  rewrite labels_app, port_labels_app, the_calls_app, (no_calls F), app_nil_r. split; [|reflexivity].
  pose proof (program_came F) as C. unfold came in *. rewrite flat_map_app, C, app_nil_r. reflexivity.
Qed.
Lemma delivery_ends lib p n m ls d : byte_in p -> Forall is_byte (came (port_labels (station_labels ls))) ->
  delivery_run lib (delivery_of p n m) ls = Some d -> in_alternation true (the_calls (station_labels ls)) ->
  exists most, forall more v, Forall delivery_program more -> delivery_run lib d more = Some v -> length more <= most.
Proof.
  intros B F H A. destruct (@alternation_ends _ _ _ _ _ _ B F (delivery_parts _ _ _ _ _ H) A) as [most Hm].
  exists (most + length (messages (snd (fed lib p (came (port_labels (station_labels ls))))))). intros more v P M.
  destruct (@came_more _ _ _ _ _ _ _ _ H M P) as (H' & C & T). rewrite labels_count.
  assert (L1 : length (station_labels more) <= most) by (eapply Hm; [apply program_labels; exact P | eapply delivery_stations; exact M]).
  pose proof (@nexts_done _ _ _ _ M) as Nx. rewrite <- C in F. rewrite <- T in A.
  destruct (@delivery_alternation _ _ _ _ _ _ B F H' A) as (parsed & rest & Ca & So & _ & _).
  destruct (struck_length So) as [L2 _]. rewrite map_length, app_length in L2. rewrite <- C, Ca. pose proof (messages_fed lib p parsed rest). lia.
Qed.

(** * At rest *)
Lemma rests_free lib p n m ls d i : delivery_run lib (delivery_of p n m) ls = Some d -> delivery_rests lib d ->
  nth_error (k_threads (st_port (d_st d))) i = Some (KBusy CNone) -> nth_error (in_places (st_in (d_st d))) i = Some PIdle -> False.
Proof.
  intros H Q B I. pose proof (@sound_run _ _ _ _ _ _ H) as So. unfold sound in So. destruct d as [[w v] todo dn lost busy]. cbn [d_st st_port st_in d_todo] in *.
  destruct (mine i todo) as [|x r] eqn:M.
  - destruct (raised v i) eqn:R.
    + specialize (Q (DStation (TPort (KDone i false))) Logic.I). cbn [delivery_step fits d_busy d_st st_in station_step] in Q. rewrite R, Bool.orb_true_r in Q.
      unfold may in Q. cbn [acting] in Q. rewrite I in Q. cbn [port_step calls] in Q. rewrite B in Q. discriminate.
    + specialize (Q (DStation (TPort (KDone i true))) Logic.I). cbn [delivery_step fits d_todo d_st st_in station_step] in Q. rewrite M in Q.
      unfold may in Q. cbn [acting] in Q. rewrite I, R in Q. cbn [negb port_step calls] in Q. rewrite B in Q. discriminate.
  - specialize (Q (DNext i) Logic.I). cbn [delivery_step st_port st_in] in Q. rewrite B, I in Q.
    destruct (take_first i todo) as [[z q]|] eqn:T; [discriminate|]. clear - M T. revert T. induction todo as [|y l IH]; [discriminate|].
    rewrite mine_cons in M. cbn [take_first]. destruct (Nat.eqb (fst y) i); [discriminate|]. destruct (take_first i l) as [[z q]|]; [discriminate | intro; apply IH; [exact M | reflexivity]].
Qed.
Lemma rests_station lib p n m ls d : delivery_run lib (delivery_of p n m) ls = Some d -> delivery_rests lib d -> station_rests lib (d_st d).
Proof.
  intros H Q x P. destruct (station_step lib (d_st d) x) as [s'|] eqn:S; [exfalso | reflexivity].
  assert (D : (exists i ok, x = TPort (KDone i ok)) \/ (forall i ok, x <> TPort (KDone i ok))) by (destruct x as [[]|]; try (right; intros; discriminate); left; eauto).
  destruct D as [(i & ok & ->)|D].
  - destruct (d_st d) as [w v] eqn:Ed. pose proof S as S0. cbn [station_step] in S. unfold may in S. cbn [acting] in S.
    destruct (nth_error (in_places v) i) as [[]|] eqn:I; try discriminate. cbn [port_step] in S.
    destruct (nth_error (k_threads w) i) as [[| | | |[]|]|] eqn:B; try (destruct ok; [destruct (negb _)|]; discriminate).
    eapply (@rests_free lib p n m ls d i H Q); rewrite Ed; cbn [st_port st_in]; assumption.
  - specialize (Q (DStation x) P). destruct d as [s todo dn lost busy]. cbn [delivery_step d_st] in *. rewrite S in Q.
    assert (Fi : fits (mkDelivery s todo dn lost busy) x = true).
    { destruct x as [[?|?|i ok|?|x|x|x]|?]; try reflexivity; try contradiction. exfalso. eapply D. reflexivity. }
    rewrite Fi in Q. destruct x as [[]|]; discriminate.
Qed.
Lemma waiting_at_rest lib p n m ls d x : delivery_run lib (delivery_of p n m) ls = Some d -> delivery_rests lib d -> In x (d_todo d) ->
  exists c, nth_error (k_threads (st_port (d_st d))) (fst x) = Some (KBusy c) /\ c <> CNone.
Proof.
  intros H Q I. pose proof (@inv_run _ _ _ _ _ _ H) as [_ _ To _]. destruct (To (fst x) (in_mine _ _ I)) as [[c B] Id].
  exists c. split; [exact B|]. intros ->. eapply rests_free; eassumption.
Qed.
Lemma all_handled lib p n m ls d i t : byte_in p -> Forall is_byte (came (port_labels (station_labels ls))) ->
  delivery_run lib (delivery_of p n m) ls = Some d -> in_alternation true (the_calls (station_labels ls)) ->
  length (k_threads (st_port (d_st d))) <= m -> delivery_rests lib d ->
  nth_error (k_threads (st_port (d_st d))) i = Some t -> alive_reader t = true ->
  t = KRead /\ d_todo d = []
  /\ struck_out (map snd (d_done d)) (messages (snd (fed lib p (came (port_labels (station_labels ls))))))
  /\ (d_lost d = [] -> map snd (d_done d) = messages (snd (fed lib p (came (port_labels (station_labels ls)))))).
Proof.
  intros B F H A L Q E Al. pose proof (@delivery_parts _ _ _ _ _ _ H) as R.
  pose proof (@run_alt _ _ _ _ _ _ R A) as [O La Au Ca].
  pose proof (@rests_station _ _ _ _ _ _ H Q) as Qs.
  assert (At : at_rest (st_port (d_st d))) by (eapply (@rest_port lib p n m B); [exists (station_labels ls); auto | exact L | exact Qs]).
  pose proof (@run_matched _ _ _ _ _ _ R) as Ma.
  assert (Len : length (in_places (st_in (d_st d))) = m) by (eapply (@reach_places lib p n m B); exists (station_labels ls); auto).
  assert (NB : forall k c, nth_error (k_threads (st_port (d_st d))) k = Some (KBusy c) -> False).
  { intros k c Bk. assert (c = CNone) by (apply (O (Reader k) c); [cbn [the_call]; rewrite Bk; reflexivity | discriminate]). subst c.
    assert (Lk : k < length (in_places (st_in (d_st d)))) by (rewrite Len; apply Nat.lt_le_trans with (length (k_threads (st_port (d_st d)))); [apply nth_error_Some; congruence | exact L]).
    specialize (At (KDone k true) Logic.I). cbn [port_step] in At. rewrite Bk in At. discriminate. }
  assert (T : d_todo d = []).
  { destruct (d_todo d) as [|x r] eqn:Et; [reflexivity|]. exfalso. destruct (@waiting_at_rest _ _ _ _ _ _ x H Q) as (c & Bc & _); [rewrite Et; left; reflexivity|]. eapply NB. exact Bc. }
  assert (Nb : nobody_inside (st_in (d_st d))).
  { apply Forall_forall. intros x I. apply In_nth_error in I as [k Ek].
    assert (D : x = PIdle \/ x <> PIdle) by (destruct x; [left; reflexivity | right; discriminate ..]). destruct D as [D|D]; [exact D|].
    exfalso. eapply NB. apply (Ma k x Ek D). }
  assert (Hd : held (st_port (d_st d)) = []).
  { assert (G : forall k b, nth_error (k_threads (st_port (d_st d))) k = Some (KGot b) -> False).
    { intros k b G. specialize (At (KLoop k) Logic.I). cbn [port_step] in At. rewrite G in At. discriminate. }
    unfold held. clear - G. induction (k_threads (st_port (d_st d))) as [|t r IH]; [reflexivity|]. cbn [flat_map].
    rewrite IH by (intros k b E; apply (G (S k) b E)). destruct t; try reflexivity. exfalso. apply (G 0 b eq_refl). }
  specialize (At (KLoop i) Logic.I). cbn [port_step] in At. rewrite E in At.
  destruct t as [| | |b|c|]; try discriminate; [|exfalso; eapply NB; exact E].
  split; [reflexivity|]. split; [exact T|].
  destruct (k_open (st_port (d_st d))); [|discriminate]. cbn [negb] in At. destruct (k_cancelled (st_port (d_st d))); [discriminate|].
  destruct (k_input (st_port (d_st d))) as [|z q] eqn:In; [|discriminate].
  destruct (@delivery_alternation _ _ _ _ _ _ B F H A) as (parsed & rest & Cm & So & Eq & Re). rewrite (Re Nb), Hd, In, !app_nil_r in Cm.
  rewrite T, app_nil_r in *. rewrite Cm. auto.
Qed.
(** the reader waits, and why *)
Lemma waiting_why lib p n m ls d x : byte_in p -> Forall is_byte (came (port_labels (station_labels ls))) ->
  delivery_run lib (delivery_of p n m) ls = Some d -> (length (k_threads (st_port (d_st d))) <= m)%nat -> delivery_rests lib d -> In x (d_todo d) ->
  exists c j, nth_error (k_threads (st_port (d_st d))) (fst x) = Some (KBusy c) /\ c <> CNone
  /\ nth_error (k_threads (st_port (d_st d))) j = Some KRead /\ k_input (st_port (d_st d)) = [].
Proof.
  intros B F H L Q I. destruct (@waiting_at_rest _ _ _ _ _ _ _ H Q I) as (c & Bc & N).
  destruct (@station_rests_waits lib p n m (station_labels ls) (d_st d) (Reader (fst x)) c B F (delivery_parts _ _ _ _ _ H) L (@rests_station _ _ _ _ _ _ H Q)) as (j & J & _ & _ & In);
    [cbn [the_call]; rewrite Bc; reflexivity | exact N |]. exists c, j. auto.
Qed.
(** two messages for the first reader; the callback of the first calls [stop_reading], and
    before the second reader looks whether to go on the application calls [start_reading] *)
Definition hangs : list DeliveryLabel :=
  each (second ++ flat_map (fun b => one_byte 0 b 10) (removelast two_inside) ++ map TPort (takes 0 66%Z ++ [KLoop 0]) ++ ps 0 41)
  ++ [DNext 0] ++ each (map TPort [KLoop 1; KStop (Reader 0); KGoOn (Reader 0); KLoop 1; KStart (App 0); KLoop 1; KGoOn (Reader 0); KGoOn (App 0); KGoOn (App 0); KLoop 2]).
Lemma callback_hangs : forall lib sk, exists ls d, delivery_run lib (delivery_of (new_parser sk) 1 3) ls = Some d
  /\ the_calls (station_labels ls) = [KStart (App 0); KStop (Reader 0); KStart (App 0)]
  /\ length (k_threads (st_port (d_st d))) = 3%nat /\ delivery_rests lib d
  /\ d_done d = [(0%nat, (4%Z, MRaw [65%Z]))] /\ d_todo d = [(0%nat, (4%Z, MRaw [66%Z]))].
Proof.
  intros [|] [|]; exists hangs; eexists; (split; [vm_compute; reflexivity|]); do 2 (split; [vm_compute; reflexivity|]);
  (split; [|split; reflexivity]);
  intros [[[b|[|[|[|[|i]]]]|[|[|[|[|i]]]] [|]|i|x|x|[[|[|[|[|i]]]]|[|[|[|[|i]]]]]]|[|[|[|[|i]]]]]|[|[|[|[|i]]]]] P; try destruct P; reflexivity.
Qed.

(** Lemmas for C104: order, and after a stop. *)
From Coq Require Import Lia Arith.
From Verif Require Import SDeliver LReaders3 LStation LStation2 LStation3 LStation4 LStation7 LStation8 LInside5 LDeliver.
Set Implicit Arguments.

Lemma delivery_parts lib p n m ls d : delivery_run lib (delivery_of p n m) ls = Some d ->
  station_run lib (station_of p n m) (station_labels ls) = Some (d_st d).
Proof. intro H. apply delivery_stations in H. exact H. Qed.
Lemma delivery_once lib p n m ls d i : delivery_run lib (delivery_of p n m) ls = Some d ->
  mine i (returned_to d) = mine i (d_done d) ++ mine i (d_todo d) ++ mine i (d_lost d)
  /\ (mine i (d_todo d) <> [] -> exists c, nth_error (k_threads (st_port (d_st d))) i = Some (KBusy c))
  /\ (mine i (d_lost d) <> [] -> nth_error (k_threads (st_port (d_st d))) i = Some KEnded).
Proof. intro H. apply inv_run in H. destruct H as [Sp Pe To Lo]. split; [apply Sp|]. split; [intro N; apply (To i N) | apply Lo]. Qed.
Lemma delivery_all lib p n m ls d : delivery_run lib (delivery_of p n m) ls = Some d ->
  Permutation (returned_to d) (d_done d ++ d_todo d ++ d_lost d).
Proof. intro H. apply inv_run in H. apply H. Qed.

(** * Nothing is forgotten without an exception of a callback *)
Definition sound (d : Delivery) : Prop := forall i, mine i (d_todo d) <> [] -> raised (st_in (d_st d)) i = false.
Lemma sound_step lib d y v : inv d -> matched (d_st d) -> sound d -> delivery_step lib d y = Some v -> sound v.
Proof.
  destruct d as [[w u] todo dn lost busy]. intros [Sp Pe To Lo] Ma So H. unfold sound in *. cbn [d_st d_todo st_in] in *.
  destruct y as [[l|i]|i]; cbn [delivery_step] in H.
  - destruct (fits _ _); [|discriminate]. destruct (station_step lib _ _) as [[w' u']|] eqn:E; [|discriminate].
    destruct (port_results _ _ _ _ E) as (P & R & Pl).
    destruct l; injection H as <-; cbn [d_st d_todo st_in]; intros j N; rewrite (@raised_same u u' j R); apply So; try exact N.
    rewrite mine_not in N. destruct (Nat.eqb j i); [contradiction | exact N].
  - cbn [fits station_step] in H. destruct (inside_step lib u (IGo i)) as [u'|] eqn:E; [|discriminate]. injection H as <-. cbn [d_st d_todo st_in].
    assert (Ti : mine i todo = []).
    { destruct (mine i todo) as [|y q] eqn:Q; [reflexivity|]. exfalso. destruct (To i ltac:(cbn [d_todo]; rewrite Q; discriminate)) as [_ C].
      cbn [inside_step d_st st_in] in *. rewrite C in E. discriminate. }
    destruct (@result_or _ _ _ _ E) as [R|(r & R & P')].
    + rewrite R, skipn_all. change (items []) with (@nil Item). rewrite app_nil_r. intros j N. rewrite (@raised_same u u' j R). apply So, N.
    + rewrite R, skipn_snoc. intros j N. rewrite mine_app, items_mine in N. rewrite (@raised_snoc u u' j (i, r) R). cbn [fst snd].
      destruct (Nat.eqb_spec i j) as [Ej|D]; [subst j | rewrite app_nil_r in N; apply So, N].
      destruct r as [r|e]; [reflexivity|]. rewrite Ti in N. exfalso. apply N. reflexivity.
  - destruct (nth_error (k_threads _) i) as [[| | | |[]|]|]; try discriminate. destruct (nth_error (in_places _) i) as [[]|]; try discriminate.
    destruct (take_first i todo) as [[x r]|] eqn:T; [|discriminate]. injection H as <-. destruct (take_mine _ _ T) as (F & M & O).
    cbn [d_st d_todo st_in]. intros j N. apply So. destruct (Nat.eq_dec j i) as [->|D]; [rewrite M; discriminate | rewrite (O j D); exact N].
Qed.
Lemma sound_run lib p n m ls : forall d, delivery_run lib (delivery_of p n m) ls = Some d -> sound d.
Proof.
  induction ls as [|y ls IH] using rev_ind; intros d H.
  - injection H as <-. intros i N. exfalso. apply N. reflexivity.
  - apply delivery_snoc in H as (u & H & S). eapply sound_step; [eapply inv_run; exact H | | apply IH; exact H | exact S].
    apply delivery_stations in H. eapply run_matched. exact H.
Qed.
Lemma raised_more lib d0 ls more : callback_raised lib d0 ls -> callback_raised lib d0 (ls ++ more).
Proof. intros (pre & i & post & u & -> & R & I). exists pre, i, (post ++ more), u. split; [rewrite <- app_assoc; reflexivity | auto]. Qed.
Lemma lost_raised lib p n m ls : forall d, delivery_run lib (delivery_of p n m) ls = Some d -> d_lost d <> [] ->
  callback_raised lib (delivery_of p n m) ls.
Proof.
  induction ls as [|y ls IH] using rev_ind; intros d H N.
  - injection H as <-. exfalso. apply N. reflexivity.
  - apply delivery_snoc in H as (u & H & S).
    assert (D : d_lost u <> [] \/ d_lost u = []) by (destruct (d_lost u); [right; reflexivity | left; discriminate]).
    destruct D as [D|D]; [apply raised_more; apply (IH u H D)|]. pose proof (@sound_run _ _ _ _ _ _ H) as So. unfold sound in So.
    destruct u as [s todo dn lost busy]. cbn [d_lost d_todo d_st] in *. subst lost. cbn [delivery_step] in S.
    destruct y as [x|i].
    + destruct (fits _ x) eqn:Fi; [|discriminate]. destruct (station_step lib s x) as [s'|]; [|discriminate].
      destruct x as [[?|?|i ok|?|?|?|?]|?]; injection S as <-; cbn [d_lost app] in N; try contradiction.
      destruct ok; cbn [fits d_todo d_busy d_st] in Fi; [destruct (mine i todo); [contradiction | discriminate]|].
      rewrite (So i N), Bool.orb_false_r in Fi. apply existsb_exists in Fi as (k & I & E). apply Nat.eqb_eq in E. subst k.
      eexists ls, i, [], _. split; [reflexivity|]. split; [exact H | exact I].
    + destruct (nth_error (k_threads _) i) as [[| | | |[]|]|]; try discriminate. destruct (nth_error (in_places _) i) as [[]|]; try discriminate.
      destruct (take_first i todo) as [[x r]|] eqn:T; [|discriminate]. injection S as <-. contradiction.
Qed.

(** * Order *)
Lemma struck_refl A (l : list A) : struck_out l l. Proof. induction l; constructor; assumption. Qed.
Lemma struck_app A (a b c d : list A) : struck_out a b -> struck_out c d -> struck_out (a ++ c) (b ++ d).
Proof. intros H K. induction H; cbn [app]; [exact K | constructor; assumption ..]. Qed.
Lemma struck_nil A (l : list A) : struck_out [] l. Proof. induction l; constructor; assumption. Qed.
Lemma struck_length A (a b : list A) : struck_out a b -> length a <= length b /\ (length a = length b -> a = b).
Proof.
  induction 1 as [|x a b H [L E]|x a b H [L E]]; cbn [length]; [auto|..].
  - split; [lia|]. intro Q. f_equal. apply E. lia.
  - split; [lia|]. intro Q. lia.
Qed.
Lemma struck_prefix A (a b c : list A) : struck_out (a ++ b) c -> struck_out a c.
Proof.
  intro H. remember (a ++ b) as l eqn:E. revert a E. induction H as [|x l c H IH|x l c H IH]; intros a E.
  - destruct a; [constructor | discriminate].
  - destruct a as [|y a]; [apply struck_nil|]. injection E as <- E. constructor. apply IH, E.
  - constructor. apply IH, E.
Qed.
Lemma struck_map A B (f : A -> B) a b : struck_out a b -> struck_out (map f a) (map f b).
Proof. induction 1; cbn [map]; constructor; assumption. Qed.
Lemma mine_all i l : (forall x, In x l -> fst x = i) -> mine i l = l /\ not_mine i l = [].
Proof.
  induction l as [|x l IH]; intro H; [auto|]. destruct IH as [A B]; [intros y I; apply H; right; exact I|].
  rewrite mine_cons, not_mine_cons, (H x (or_introl eq_refl)), Nat.eqb_refl, A, B. auto.
Qed.
Lemma in_mine x l : In x l -> mine (fst x) l <> [].
Proof. intros I E. assert (In x (mine (fst x) l)) by (apply filter_In; split; [exact I | apply Nat.eqb_refl]). rewrite E in H. exact H. Qed.
(** with one reader everything to be taken is its own *)
Lemma todo_one d i c : inv d -> live (st_port (d_st d)) <= 1 -> nth_error (k_threads (st_port (d_st d))) i = Some (KBusy c) ->
  forall x, In x (d_todo d) -> fst x = i.
Proof.
  intros [_ _ To _] L B x I. destruct (To (fst x) (in_mine _ _ I)) as [[c' B'] _].
  eapply (live_two (st_port (d_st d)) (fst x) i); [congruence | exact L | exact B' | exact B | reflexivity | reflexivity].
Qed.
Lemma alone_state lib p n m ls d : delivery_run lib (delivery_of p n m) ls = Some d -> alone lib (station_of p n m) (station_labels ls) ->
  live (st_port (d_st d)) <= 1.
Proof. intros H A. apply delivery_stations in H. apply (A (station_labels ls) [] (d_st d)); [rewrite app_nil_r; reflexivity | exact H]. Qed.
Lemma run_struck lib p n m ls : forall d, delivery_run lib (delivery_of p n m) ls = Some d -> alone lib (station_of p n m) (station_labels ls) ->
  struck_out (d_done d ++ d_todo d) (returned_to d).
Proof.
  induction ls as [|y ls IH] using rev_ind; intros d H A.
  - injection H as <-. constructor.
  - apply delivery_snoc in H as (u & H & S). rewrite labels_app in A. apply alone_prefix in A. specialize (IH u H A).
    pose proof (@alone_state _ _ _ _ _ _ H A) as L. pose proof (@inv_run _ _ _ _ _ _ H) as I.
    assert (Ma : matched (d_st u)) by (apply delivery_stations in H; eapply run_matched; exact H).
    pose proof (@todo_one u) as T1. specialize (fun i c => T1 i c I L). destruct I as [_ _ To _].
    destruct u as [[w v] todo dn lost busy]. unfold returned_to in *. cbn [d_done d_todo d_st st_in st_port] in *.
    destruct y as [[l|i]|i]; cbn [delivery_step] in S.
    + destruct (fits _ _); [|discriminate]. destruct (station_step lib _ _) as [[w' v']|] eqn:E; [|discriminate].
      destruct (port_results _ _ _ _ E) as (P & R & Pl).
      destruct l; injection S as <-; cbn [d_done d_todo d_st st_in]; rewrite R; try exact IH.
      cbn [port_step] in P. destruct (nth_error (k_threads w) i) as [[| | | |c|]|] eqn:B; try discriminate.
      destruct (@mine_all i todo (T1 i c B)) as [_ ->]. rewrite app_nil_r. eapply struck_prefix. exact IH.
    + cbn [fits station_step] in S. destruct (inside_step lib v (IGo i)) as [v'|] eqn:E; [|discriminate]. injection S as <-. cbn [d_done d_todo d_st st_in].
      destruct (@result_or _ _ _ _ E) as [R|(r & R & P')].
      * rewrite R, skipn_all. change (items []) with (@nil Item). rewrite app_nil_r. exact IH.
      * rewrite R, skipn_snoc, items_app, app_assoc. apply struck_app; [exact IH | apply struck_refl].
    + cbn [st_port st_in] in S. destruct (nth_error (k_threads w) i) as [[| | | |[]|]|] eqn:B; try discriminate. destruct (nth_error (in_places v) i) as [[]|]; try discriminate.
      destruct (take_first i todo) as [[x r]|] eqn:T; [|discriminate]. injection S as <-. cbn [d_done d_todo d_st st_in].
      specialize (T1 i CNone B). destruct todo as [|z todo]; [discriminate|]. cbn [take_first] in T.
      rewrite (T1 z (or_introl eq_refl)), Nat.eqb_refl in T. injection T as -> ->. rewrite <- app_assoc. exact IH.
Qed.
Lemma items_messages rs : map snd (items rs) = messages (map snd rs).
Proof.
  unfold items, messages in *. induction rs as [|[i r] rs IH]; [reflexivity|]. cbn [flat_map map snd fst]. rewrite map_app, IH. f_equal.
  destruct r as [r|e]; [|reflexivity]. rewrite map_map. cbn [snd]. apply map_id.
Qed.
Lemma delivery_in_order lib p n m ls d : byte_in p -> Forall is_byte (came (port_labels (station_labels ls))) ->
  delivery_run lib (delivery_of p n m) ls = Some d -> alone lib (station_of p n m) (station_labels ls) ->
  exists parsed rest, came (port_labels (station_labels ls)) = parsed ++ rest
  /\ struck_out (map snd (d_done d ++ d_todo d)) (messages (snd (fed lib p parsed)))
  /\ (d_lost d = [] -> map snd (d_done d ++ d_todo d) = messages (snd (fed lib p parsed)))
  /\ (nobody_inside (st_in (d_st d)) -> rest = held (st_port (d_st d)) ++ k_input (st_port (d_st d))).
Proof.
  intros B F H A. pose proof (@delivery_parts _ _ _ _ _ _ H) as R.
  destruct (@station_in_order _ _ _ _ _ _ B F R A) as (C & back & now & Hd & Ln & Rs & Nb). rewrite Hd in C.
  exists back. eexists. split; [rewrite C, <- app_assoc; reflexivity|].
  assert (E : messages (snd (fed lib p back)) = map snd (returned_to d)) by (unfold returned_to; rewrite items_messages, <- Rs; reflexivity).
  rewrite E. pose proof (@run_struck _ _ _ _ _ _ H A) as St. split; [apply struck_map; exact St|]. split.
  - intro L. f_equal. destruct (struck_length St) as [_ Q]. apply Q. pose proof (@delivery_all _ _ _ _ _ _ H) as P.
    rewrite L, app_nil_r in P. symmetry. apply Permutation_length, P.
  - intro N. destruct (Nb N) as [-> _]. reflexivity.
Qed.

(** * After a stop *)
Lemma live_none w i t : live w = 0 -> nth_error (k_threads w) i = Some t -> alive_reader t = false.
Proof.
  unfold live. intros L E. destruct (alive_reader t) eqn:A; [|reflexivity]. exfalso. apply nth_error_In in E.
  assert (In t (filter alive_reader (k_threads w))) as I by (apply filter_In; auto). destruct (filter alive_reader (k_threads w)); [exact I | discriminate].
Qed.
Lemma weight_run lib ls : forall s v, station_run lib s ls = Some v -> starts (port_labels ls) = 0 -> weigh lv st (st_port s) = 0 -> weigh lv st (st_port v) = 0.
Proof.
  induction ls as [|x ls IH]; intros s v R N W; cbn [station_run] in R; [injection R as <-; exact W|].
  destruct (station_step lib s x) as [u|] eqn:E; [|discriminate]. change (x :: ls) with ([x] ++ ls) in N. rewrite port_labels_app in N.
  unfold starts in N. rewrite filter_app, app_length in N. apply (IH u v R); [unfold starts; lia|].
  destruct (step_parts _ _ _ E) as [P _]. destruct x as [l|i]; cbn [port_labels flat_map app port_run] in *; [|injection P as <-; exact W].
  destruct (port_step (st_port s) l) as [w'|] eqn:Q; [|discriminate]. injection P as <-. apply step_lv in Q.
  cbn [filter] in N. destruct (is_start l); [cbn [length] in N; lia | lia].
Qed.
Lemma delivery_quiet lib p n m ls d more v : delivery_run lib (delivery_of p n m) ls = Some d -> live (st_port (d_st d)) = 0 ->
  ~ starting (st_port (d_st d)) -> delivery_run lib d more = Some v -> starts (port_labels (station_labels more)) = 0 ->
  d_todo d = [] /\ d_done v = d_done d.
Proof.
  intros H L N M S. pose proof (@inv_run _ _ _ _ _ _ H) as [_ _ To _]. split.
  { destruct (d_todo d) as [|x r] eqn:E; [reflexivity|]. exfalso. destruct (To (fst x)) as [[c B] _]; [apply in_mine; left; reflexivity|].
    pose proof (live_none _ _ L B). discriminate. }
  clear To H. apply none_lv in L; [|exact N]. clear N. revert v M S. induction more as [|y more IH] using rev_ind; intros v M S; [injection M as <-; reflexivity|].
  apply delivery_snoc in M as (u & M & Q). rewrite labels_app, port_labels_app in S. unfold starts in S. rewrite filter_app, app_length in S.
  assert (S1 : starts (port_labels (station_labels more)) = 0) by (unfold starts; lia). rewrite <- (IH u M S1).
  assert (W : weigh lv st (st_port (d_st u)) = 0) by (eapply weight_run; [eapply delivery_stations; exact M | exact S1 | exact L]).
  destruct u as [s todo dn lost busy]. cbn [d_st d_done] in *. cbn [delivery_step] in Q. destruct y as [x|i].
  - destruct (fits _ x); [|discriminate]. destruct (station_step lib s x) as [s'|]; [|discriminate]. destruct x as [[]|]; injection Q as <-; reflexivity.
  - destruct (nth_error (k_threads (st_port s)) i) as [t|] eqn:E; [|discriminate].
    assert (L0 : live (st_port s) = 0) by (pose proof (live_lv (st_port s)); lia). pose proof (live_none _ _ L0 E) as Al. destruct t; discriminate.
Qed.
Lemma alternation_stopped lib p n m ls d before : delivery_run lib (delivery_of p n m) ls = Some d ->
  in_alternation true (the_calls (station_labels ls)) -> the_calls (station_labels ls) = before ++ [KStop (App 0)] ->
  the_call (st_port (d_st d)) (App 0) = Some CNone ->
  live (st_port (d_st d)) = 0 /\ ~ starting (st_port (d_st d)).
Proof.
  intros H A E C. apply delivery_parts in H. pose proof (@run_alt _ _ _ _ _ _ H A) as [O La Al Ca].
  assert (X : after true (the_calls (station_labels ls)) = false).
  { rewrite E in *. rewrite after_snoc. apply alternation_snoc in A as [_ K]. destruct (after true before); [reflexivity | discriminate]. }
  specialize (Ca CNone C X). split.
  - unfold live. destruct (filter alive_reader _) as [|t r] eqn:F; [reflexivity|]. exfalso.
    assert (I : In t (filter alive_reader (k_threads (st_port (d_st d))))) by (rewrite F; left; reflexivity).
    apply filter_In in I as [I T]. apply In_nth_error in I as [i I]. rewrite (Ca i t I) in T. discriminate.
  - intros (x & Hx). assert (D : x = App 0 \/ x <> App 0) by (destruct x as [[|k]|k]; [left; reflexivity | right; discriminate ..]).
    destruct D as [->|D]; [destruct Hx; congruence|]. destruct Hx as [Hx|Hx]; specialize (O x _ Hx D); discriminate.
Qed.

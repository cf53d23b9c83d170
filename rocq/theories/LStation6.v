(** C102: nobody waits for ever, unless two readers keep each other busy. *)
From Coq Require Import Lia.
From Verif Require Import LInside LInside2 LInside3 LInside5.
From Verif Require Import SStation MReaders LReaders LReaders2 LReaders3 LReaders4 LReaders6 LStation LStation2.
Set Implicit Arguments.
Close Scope Z_scope.

Lemma picked_bytes all bytes ns : picked all bytes ns -> Forall is_byte all -> Forall is_byte bytes.
Proof.
  unfold picked. intros H F. induction H as [|k b ns bytes E _ IH]; constructor; [|exact IH].
  rewrite Forall_forall in F. apply F. eapply nth_error_In. exact E.
Qed.
Lemma handed_bytes n ls w : port_run (new_port n) ls = Some w -> Forall is_byte (came ls) -> Forall is_byte (handed (new_port n) ls).
Proof. intros R F. destruct (run_order _ _ R) as (order & kept & P & _). eapply picked_bytes; eassumption. Qed.

Section Ends.
Variables (lib : bool) (p : SParser) (n m : nat).
Hypothesis B : byte_in p.
Definition Reach (s : Station) : Prop := exists ls, station_run lib (station_of p n m) ls = Some s /\ Forall is_byte (came (port_labels ls)).
Lemma reach_inside s : Reach s -> exists il, inside_run lib (inside_of p m) il = Some (st_in s) /\ Forall is_byte (given il).
Proof.
  intros (ls & R & F). destruct (run_parts _ _ _ R) as (A & C & D). cbn [station_of st_port st_in] in *.
  eexists. split; [exact C|]. rewrite D. eapply handed_bytes; eassumption.
Qed.
Lemma reach_places s : Reach s -> length (in_places (st_in s)) = m.
Proof.
  intro R. destruct (reach_inside R) as (il & A & F). pose proof (k_number (@kept_run lib p m B il _ F A)) as T.
  cbn [inside_of in_places] in T. rewrite repeat_length in T. exact T.
Qed.
Lemma reach_step s x s' : Reach s -> program_step x -> station_step lib s x = Some s' -> Reach s'.
Proof.
  intros (ls & R & F) P S. exists (ls ++ [x]). rewrite station_app, R. cbn [station_run]. rewrite S. split; [reflexivity|].
  rewrite port_labels_app, came_app. apply Forall_app. split; [exact F|]. destruct x as [l|i]; [|constructor].
  destruct l; cbn [program_step own_step] in P; try contradiction; constructor.
Qed.

(** * Rest *)
Lemma acting_thread w l v i : port_step w l = Some v -> acting l = Some i -> i < length (k_threads w).
Proof.
  assert (K : forall (ts : list KThread) i, nth_error ts i <> None -> i < length ts) by (intros ts j H; apply nth_error_Some; exact H).
  intros S A. destruct l as [b|j|j ok|j|[j|j]|[j|j]|[j|j]]; cbn [acting port_step the_call] in *; try discriminate; injection A as <-;
    apply K; intro E; rewrite E in S; discriminate.
Qed.
Lemma rest_port s : Reach s -> length (k_threads (st_port s)) <= m -> station_rests lib s -> at_rest (st_port s).
Proof.
  intros R L Q l O. destruct (port_step (st_port s) l) as [w'|] eqn:P; [exfalso | reflexivity].
  pose proof (reach_places R) as Lm. destruct (reach_inside R) as (il & Ri & F).
  assert (Step : forall l', own_step l' -> port_step (st_port s) l' <> None -> may (st_in s) l' = true -> False).
  { intros l' O' P' Y. specialize (Q (TPort l') O'). destruct s as [w v]. cbn [station_step st_port st_in] in *. rewrite Y in Q.
    destruct (port_step w l') as [w2|] eqn:P2; [|congruence]. destruct (calls w l') as [[i b]|] eqn:C; [|discriminate].
    cbn [inside_step] in Q. destruct l' as [?|k|?|?|?|?|?]; try discriminate. cbn [calls] in C. destruct (nth_error (k_threads w) k) as [[]|]; try discriminate.
    injection C as <- <-. unfold may in Y. cbn [acting] in Y. destruct (nth_error (in_places v) k) as [[]|]; discriminate. }
  destruct (may (st_in s) l) eqn:Y; [apply (Step l O); [rewrite P; discriminate | exact Y]|].
  unfold may in Y. destruct (acting l) as [i|] eqn:A; [|discriminate].
  pose proof (acting_thread _ _ P A) as Li.
  destruct (nth_error (in_places (st_in s)) i) as [x|] eqn:E.
  - destruct x as [|u c|u r c|b y c].
    + destruct l as [?|k|k [|]|k|x|x|x]; cbn [own_step] in O; try contradiction; try discriminate.
      cbn [acting] in A. injection A as ->. apply (Step (KDone i false)); [exact O | |].
      * cbn [port_step] in *. destruct (nth_error (k_threads (st_port s)) i) as [[| | | |[]|]|]; try discriminate P; discriminate.
      * unfold may. cbn [acting]. rewrite E. reflexivity.
    + destruct (@inside_moves lib p m il (st_in s) i _ B F Ri E) as [v V]; [discriminate|]. specialize (Q (TParse i) Logic.I). destruct s as [w v0]. cbn [station_step st_in] in *. rewrite V in Q. discriminate.
    + destruct (@inside_moves lib p m il (st_in s) i _ B F Ri E) as [v V]; [discriminate|]. specialize (Q (TParse i) Logic.I). destruct s as [w v0]. cbn [station_step st_in] in *. rewrite V in Q. discriminate.
    + destruct (@inside_moves lib p m il (st_in s) i _ B F Ri E) as [v V]; [discriminate|]. specialize (Q (TParse i) Logic.I). destruct s as [w v0]. cbn [station_step st_in] in *. rewrite V in Q. discriminate.
  - apply nth_error_None in E. lia.
Qed.

(** * An end *)
Definition bounded (s : Station) : Prop := exists most, forall more v, Forall program_step more -> station_run lib s more = Some v ->
  alone lib s more -> length more <= most.
Lemma alone_tail s x s1 more : station_step lib s x = Some s1 -> alone lib s (x :: more) -> alone lib s1 more.
Proof. intros S A pre post u E R. apply (A (x :: pre) post u); [rewrite E; reflexivity|]. cbn [station_run]. rewrite S. exact R. Qed.

Definition candidates (w : Port) : list PortLabel :=
  flat_map (fun i => [KLoop i; KDone i true; KDone i false; KGoOn (App i); KGoOn (Reader i)]) (seq 0 (length (k_threads w) + length (k_apps w))).
Lemma candidate w l v : port_step w l = Some v -> own_step l -> In l (candidates w).
Proof.
  intros P O.
  assert (K : forall i, i < length (k_threads w) + length (k_apps w) -> forall l', In l' [KLoop i; KDone i true; KDone i false; KGoOn (App i); KGoOn (Reader i)] -> In l' (candidates w)).
  { intros i L l' I. unfold candidates. apply in_flat_map. exists i. split; [apply in_seq; lia | exact I]. }
  assert (T : forall A (ts : list A) i, nth_error ts i <> None -> i < length ts) by (intros A ts j H; apply nth_error_Some; exact H).
  destruct l as [b|i|i ok|i|x|x|[i|i]]; cbn [own_step] in O; try contradiction; cbn [port_step the_call] in P.
  - apply (K i); [|cbn; tauto]. enough (i < length (k_threads w)) by lia. apply T. intro E. rewrite E in P. discriminate.
  - apply (K i); [|destruct ok; cbn; tauto]. enough (i < length (k_threads w)) by lia. apply T. intro E. rewrite E in P. discriminate.
  - apply (K i); [|cbn; tauto]. enough (i < length (k_apps w)) by lia. apply T. intro E. rewrite E in P. discriminate.
  - apply (K i); [|cbn; tauto]. enough (i < length (k_threads w)) by lia. apply T. intro E. rewrite E in P. discriminate.
Qed.
Lemma common A (Q : A -> nat -> Prop) (l : list A) : (forall x a b, a <= b -> Q x a -> Q x b) -> (forall x, In x l -> exists b, Q x b) ->
  exists b, forall x, In x l -> Q x b.
Proof.
  intros M. induction l as [|x l IH]; intro H; [exists 0; intros y []|].
  destruct (H x (or_introl eq_refl)) as [a A0]. destruct IH as [b B0]; [intros y Y; apply H; right; exact Y|].
  exists (a + b). intros y [<-|Y]; [apply (M _ a); [lia | exact A0] | apply (M _ b); [lia | apply B0; exact Y]].
Qed.

Lemma ports_bounded W s : (forall s, Reach s -> work (st_port s) < W -> bounded s) -> Reach s -> work (st_port s) <= W ->
  exists most, forall l s1, own_step l -> station_step lib s (TPort l) = Some s1 ->
    forall more v, Forall program_step more -> station_run lib s1 more = Some v -> alone lib s1 more -> length more <= most.
Proof.
  intros IH R L.
  destruct (@common _ (fun l b => forall s1, own_step l -> station_step lib s (TPort l) = Some s1 ->
    forall more v, Forall program_step more -> station_run lib s1 more = Some v -> alone lib s1 more -> length more <= b) (candidates (st_port s))) as [b Hb].
  - intros l a b Lab H s1 O S more v F Rm Al. specialize (H s1 O S more v F Rm Al). lia.
  - intros l _. destruct (station_step lib s (TPort l)) as [s1|] eqn:S; [|exists 0; discriminate].
    assert (D : own_step l \/ ~ own_step l) by (destruct l; cbn [own_step]; tauto). destruct D as [D|D]; [|exists 0; intros; contradiction].
    destruct (IH s1) as [b Hb].
    + eapply (@reach_step s (TPort l)); [exact R | exact D | exact S].
    + destruct (step_parts _ _ _ S) as [P _]. cbn [port_labels flat_map app port_run] in P.
      destruct (port_step (st_port s) l) as [w'|] eqn:E; [|discriminate]. injection P as <-. pose proof (step_work _ _ E D). lia.
    + exists b. intros s2 _ E. injection E as <-. exact Hb.
  - exists b. intros l s1 O S. refine (Hb l _ s1 O S).
    destruct (step_parts _ _ _ S) as [P _]. cbn [port_labels flat_map app port_run] in P.
    destruct (port_step (st_port s) l) as [w'|] eqn:E; [|discriminate]. eapply candidate; eassumption.
Qed.
Lemma inside_bounded W i : (forall s, Reach s -> work (st_port s) < W -> bounded s) -> forall j s v', Reach s -> work (st_port s) <= W ->
  (forall k x, k <> i -> nth_error (in_places (st_in s)) k = Some x -> x = PIdle) ->
  inside_run lib (st_in s) (repeat (IGo i) j) = Some v' -> (forall x, nth_error (in_places v') i = Some x -> x = PIdle) -> bounded s.
Proof.
  intros IH. induction j as [|j IHj]; intros s v' R L Ot Ri Id; destruct (ports_bounded IH R L) as [b Hb].
  - injection Ri as <-. exists (S b). intros more v F Rm Al. destruct more as [|x more]; [cbn; lia|]. cbn [station_run] in Rm.
    destruct (station_step lib s x) as [s1|] eqn:S; [|discriminate]. inversion F as [|? ? Fx Fm]; subst.
    destruct x as [l|k].
    + specialize (Hb l s1 Fx S more v Fm Rm (alone_tail S Al)). cbn. lia.
    + exfalso. destruct s as [w u]. cbn [station_step st_in] in *. cbn [inside_step] in S.
      destruct (nth_error (in_places u) k) as [y|] eqn:E; [|discriminate].
      assert (y = PIdle) as -> by (destruct (Nat.eq_dec k i) as [->|N]; [apply Id; exact E | eapply Ot; eassumption]). discriminate.
  - cbn [repeat inside_run] in Ri. destruct (inside_step lib (st_in s) (IGo i)) as [v1|] eqn:Si; [|discriminate].
    assert (S1 : station_step lib s (TParse i) = Some (mkStation (st_port s) v1)) by (destruct s as [w u]; cbn [station_step st_in st_port] in *; rewrite Si; reflexivity).
    destruct (IHj (mkStation (st_port s) v1) v') as [b1 H1]; cbn [st_port st_in]; try assumption.
    + eapply (@reach_step s (TParse i)); [exact R | exact Logic.I | exact S1].
    + intros k x N E. rewrite (@others_step lib i _ _ Si k N) in E. eapply Ot; eassumption.
    + exists (S (b + b1)). intros more v F Rm Al. destruct more as [|x more]; [cbn; lia|]. cbn [station_run] in Rm.
      destruct (station_step lib s x) as [s1|] eqn:S; [|discriminate]. inversion F as [|? ? Fx Fm]; subst.
      destruct x as [l|k].
      * specialize (Hb l s1 Fx S more v Fm Rm (alone_tail S Al)). cbn. lia.
      * destruct (Nat.eq_dec k i) as [->|N].
        -- rewrite S1 in S. injection S as <-. specialize (H1 more v Fm Rm (alone_tail S1 Al)). cbn. lia.
        -- exfalso. destruct s as [w u]. cbn [station_step st_in] in *. cbn [inside_step] in S.
           destruct (nth_error (in_places u) k) as [y|] eqn:E; [|discriminate]. assert (y = PIdle) as -> by (eapply Ot; eassumption). discriminate.
Qed.
Lemma reach_matched s : Reach s -> matched s.
Proof. intros (ls & R & _). eapply run_matched. exact R. Qed.
Lemma some_inside (ps : list Place) : (exists i x, nth_error ps i = Some x /\ x <> PIdle) \/ forall i x, nth_error ps i = Some x -> x = PIdle.
Proof.
  induction ps as [|y ps IH]; [right; intros [|i] x; discriminate|].
  assert (D : y = PIdle \/ y <> PIdle) by (destruct y; [left; reflexivity | right; discriminate ..]).
  destruct D as [->|D]; [|left; exists 0, y; auto]. destruct IH as [(i & x & E & N)|H]; [left; exists (S i), x; auto|].
  right. intros [|i] x; cbn; [congruence | apply H].
Qed.
Lemma all_bounded : forall W s, Reach s -> work (st_port s) < W -> bounded s.
Proof.
  induction W as [|W IH]; intros s R L; [lia|].
  destruct (le_lt_dec (live (st_port s)) 1) as [Lv|Lv].
  2:{ exists 0. intros more v F Rm Al. specialize (Al [] more s eq_refl eq_refl). lia. }
  pose proof (reach_matched R) as M.
  destruct (some_inside (in_places (st_in s))) as [(i & x & E & N)|H].
  - destruct (reach_inside R) as (il & Ri & F).
    assert (Li : i < m) by (rewrite <- (reach_places R); apply nth_error_Some; congruence).
    destruct (@inside_comes_out lib p m il (st_in s) i B F Ri Li) as (k & v' & Rk & Ik & _).
    eapply (@inside_bounded W i IH k s v'); [exact R | lia | | exact Rk | congruence].
    intros j y Nj Ej. assert (D : y = PIdle \/ y <> PIdle) by (destruct y; [left; reflexivity | right; discriminate ..]).
    destruct D as [D|D]; [exact D|]. exfalso. apply Nj. pose proof (M i x E N) as Ti. pose proof (M j y Ej D) as Tj.
    eapply (@live_two (st_port s) j i); try eassumption; [congruence | reflexivity | reflexivity].
  - eapply (@inside_bounded W 0 IH 0 s (st_in s)); [exact R | lia | intros k x _; apply H | reflexivity | apply H].
Qed.
End Ends.

Lemma station_rests_waits lib p n m ls s x c : byte_in p -> Forall is_byte (came (port_labels ls)) ->
  station_run lib (station_of p n m) ls = Some s -> length (k_threads (st_port s)) <= m -> station_rests lib s ->
  the_call (st_port s) x = Some c -> c <> CNone ->
  exists j, nth_error (k_threads (st_port s)) j = Some KRead /\ k_open (st_port s) = true /\ k_cancelled (st_port s) = false /\ k_input (st_port s) = [].
Proof.
  intros B F R L Q C N. destruct (run_parts _ _ _ R) as (Rp & _). cbn [station_of st_port] in Rp.
  eapply rest_waits; [exact Rp | | exact C | exact N].
  eapply (@rest_port lib p n m B); [exists ls; auto | exact L | exact Q].
Qed.
Lemma station_ends lib p n m ls s : byte_in p -> Forall is_byte (came (port_labels ls)) ->
  station_run lib (station_of p n m) ls = Some s ->
  exists most, forall more v, Forall program_step more -> station_run lib s more = Some v ->
    alone lib s more -> length more <= most.
Proof. intros B F R. apply (@all_bounded lib p n m B (S (work (st_port s))) s); [exists ls; auto | lia]. Qed.

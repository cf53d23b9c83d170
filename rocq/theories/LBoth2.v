(** Proofs about several callers of one modem object: what calls return. *)
From Verif Require Import LSend SBoth LReenter LConverse LSerial LBoth.

Lemma last_start p a c t q0 : exists b d u p' q, p ++ EvStart a c t :: q0 = p' ++ EvStart b d u :: q
  /\ no_start q /\ exists z, q0 = z ++ q.
Proof.
  induction q0 as [|e q0 IH] using rev_ind.
  - exists a, c, t, p, []. refine (conj eq_refl (conj (Forall_nil _) _)). exists []. reflexivity.
  - destruct (starts_call e) eqn:S.
    + destruct e as [b d u|tx|b d u v]; try discriminate. exists b, d, u, (p ++ EvStart a c t :: q0), [].
      refine (conj _ (conj (Forall_nil _) _)); [rewrite <- app_assoc; reflexivity | exists (q0 ++ [EvStart b d u]); rewrite app_nil_r; reflexivity].
    + destruct IH as (b & d & u & p' & q & E & N & z & ->). exists b, d, u, p', (q ++ [e]). split; [|split].
      * change (p ++ EvStart a c t :: (z ++ q) ++ [e]) with (p ++ (EvStart a c t :: (z ++ q)) ++ [e]).
        rewrite app_assoc, E, <- app_assoc. reflexivity.
      * apply Forall_app. split; [exact N | constructor; [exact S | constructor]].
      * exists z. rewrite app_assoc. reflexivity.
Qed.
(** two ways to cut at the last start are the same *)
Lemma same_last_start p a c t q p' a' c' t' q' : p ++ EvStart a c t :: q = p' ++ EvStart a' c' t' :: q' ->
  no_start q -> no_start q' -> c = c' /\ t = t' /\ q = q' /\ a = a' /\ p = p'.
Proof.
  revert q'. induction q as [|e q IH] using rev_ind; intros q' E N N'.
  - apply snoc_split in E. destruct E as [(-> & E & ->)|(z & -> & ->)].
    + injection E as -> -> ->. auto.
    + apply snoc_no_start in N'. destruct N' as [_ N']. discriminate.
  - change (p ++ EvStart a c t :: q ++ [e]) with (p ++ (EvStart a c t :: q) ++ [e]) in E. rewrite app_assoc in E.
    apply snoc_no_start in N. destruct N as [N S]. apply snoc_split in E. destruct E as [(-> & -> & _)|(z & -> & E)]; [discriminate|].
    apply snoc_no_start in N'. destruct N' as [N' _]. destruct (IH z E N N') as (A & B & -> & D). auto.
Qed.

Definition returned (skip : bool) (pre : list Event) (a : Who) (c : Command) (t : Z) (r : res (list Msg)) : Prop :=
  match r with
  | Err e => refused c e
  | Ok l =>
      exists p q, pre = p ++ EvStart a c t :: q /\ silent a q /\ (a = TheCallback -> no_message q)
        /\ exists b d u p' q', pre = p' ++ EvStart b d u :: q' /\ no_start q' /\ (exists z, q = z ++ q') /\ l = collected skip d u q'
  end.
Definition all_returned (skip : bool) (evs : list Event) : Prop :=
  forall pre a c t r post, evs = pre ++ EvReturn a c t r :: post -> returned skip pre a c t r.
Lemma all_returned_snoc k evs e : all_returned k evs ->
  match e with EvReturn a c t r => returned k evs a c t r | _ => True end -> all_returned k (evs ++ [e]).
Proof.
  intros H R pre a c t r post E. apply snoc_split in E. destruct E as [(-> & -> & ->)|(q & -> & ->)]; [exact R|].
  apply (H pre a c t r q). reflexivity.
Qed.

Definition pending_calls (w : BWorld) (evs : list Event) : Prop :=
  forall a c t, waiting w a = Some (c, t) ->
    exists p q, evs = p ++ EvStart a c t :: q /\ silent a q /\ (a = TheCallback -> no_message q).
Lemma silent_snoc a q e : silent a q -> by_caller a e = false -> silent a (q ++ [e]).
Proof. intros S E. apply Forall_app. split; [exact S | constructor; [exact E | constructor]]. Qed.
Lemma pending_snoc w w' evs e : pending_calls w evs ->
  (forall a c t, waiting w' a = Some (c, t) -> waiting w a = Some (c, t) /\ by_caller a e = false /\ (a = TheCallback -> is_message e = false)) ->
  pending_calls w' (evs ++ [e]).
Proof.
  intros P H a c t W. destruct (H a c t W) as (W0 & B & M). destruct (P a c t W0) as (p & q & -> & S & N).
  exists p, (q ++ [e]). refine (conj _ (conj (silent_snoc _ _ _ S B) _)); [rewrite <- app_assoc; reflexivity|].
  intro A. apply Forall_app. split; [exact (N A) | constructor; [exact (M A) | constructor]].
Qed.
Lemma other_caller a b : b <> a -> same_caller b a = false.
Proof. intro N. destruct (same_caller b a) eqn:E; [|reflexivity]. apply same_caller_eq in E. contradiction. Qed.

Lemma calls_made_app a b : calls_made (a ++ b) = calls_made a ++ calls_made b.
Proof. apply flat_map_app. Qed.

Lemma refuses p c e : is_byte (sp_up p) -> snd (build_serial_frame p (command_ser c)) = Err e -> refused c e.
Proof.
  intros B E q Q. pose proof (build_spec p (command_ser c) B) as H. pose proof (build_spec q (command_ser c) Q) as G.
  destruct (command_ser c) as [a|e'].
  - destruct (zlen a <=? 255); [destruct H as (p' & H & _); rewrite H in E; discriminate | rewrite H in E; rewrite G; exact E].
  - rewrite H in E. rewrite G. exact E.
Qed.

Record sound (s : Session) (w : BWorld) (evs : list Event) : Prop := mkSound
  { so_skip : m_skip (modem_of (the_session w)) = m_skip (modem_of s);
    so_up : sp_up (parser_of (the_session w)) = sp_up (sender (parser_of s) (calls_made evs));
    so_sent : se_sent (the_session w) = se_sent s ++ outgoing (parser_of s) (calls_made evs);
    so_follows : follows (the_session w) evs;
    so_pending : pending_calls w evs;
    so_returned : all_returned (skips s) evs }.

Lemma kind_sound s w w' es evs : is_byte (sp_up (parser_of s)) -> kind w w' es -> sound s w evs -> sound s w' (evs ++ es).
Proof.
  intros By K [Sk Up Se Fo Pe Re]. destruct K as [M [Q1 Q2] W | tx M [Q1 Q2] W W0 | a c t s' r X S0 W0 W1 W2 | a c t S0 W0 W1 W2].
  - rewrite app_nil_r. constructor; try assumption.
    + rewrite M. exact Sk.
    + rewrite Q1. exact Up.
    + rewrite Q2. exact Se.
    + apply (follows_modem (the_session w)); assumption.
    + intros a c t E. rewrite W in E. exact (Pe a c t E).
  - assert (C0 : calls_made (evs ++ [EvMessage tx]) = calls_made evs) by (rewrite calls_made_app; cbn; apply app_nil_r).
    constructor; rewrite ?C0.
    + rewrite M, dispatch_skip. exact Sk.
    + rewrite Q1. exact Up.
    + rewrite Q2. exact Se.
    + apply (follows_message (the_session w)); assumption.
    + apply (pending_snoc w); [exact Pe|]. intros a c t E. rewrite W in E. refine (conj E (conj eq_refl _)). intros ->. congruence.
    + apply all_returned_snoc; [exact Re | exact I].
  - subst s'. destruct (execute_facts _ _ _ _ _ X) as (K2 & U2 & T2).
    pose proof (outgoing_up (parser_of (the_session w)) (sender (parser_of s) (calls_made evs)) [(c, t, match r with Ok _ => Ok [] | Err e => Err e end)] Up) as [O1 O2].
    rewrite O2, <- sender_app in U2. rewrite O1, Se, <- app_assoc, <- outgoing_app in T2. rewrite Sk in K2.
    unfold call_events. rewrite X. cbn [snd]. destruct r as [u|e].
    + assert (C0 : calls_made (evs ++ [EvStart a c t]) = calls_made evs ++ [(c, t, Ok [])]) by (rewrite calls_made_app; reflexivity).
      assert (P1 : waits_not (the_session w) t = false -> pending_calls w' (evs ++ [EvStart a c t])).
      { intros Wn. intros b d v E. destruct (same_caller b a) eqn:Eb.
        - apply same_caller_eq in Eb. subst b. rewrite W1, Wn in E. injection E as <- <-. exists evs, [].
          refine (conj eq_refl (conj (Forall_nil _) (fun _ => Forall_nil _))).
        - assert (Nb : b <> a) by (intros ->; rewrite (proj2 (same_caller_eq a a) eq_refl) in Eb; discriminate).
          rewrite (W2 b Nb) in E. destruct (Pe b d v E) as (p & q & -> & S & N). exists p, (q ++ [EvStart a c t]).
          refine (conj _ (conj (silent_snoc b _ (EvStart a c t) S Eb) _)); [rewrite <- app_assoc; reflexivity|].
          intro A. apply Forall_app. split; [exact (N A) | constructor; [reflexivity | constructor]]. }
      assert (F1 : follows (the_session w') (evs ++ [EvStart a c t])) by (apply (follows_start (the_session w) _ _ _ _ _ u); exact X).
      assert (R1 : all_returned (skips s) (evs ++ [EvStart a c t])) by (apply all_returned_snoc; [exact Re | exact I]).
      destruct (waits_not (the_session w) t) eqn:Wn.
      * change (EvStart a c t :: [EvReturn a c t (Ok [])]) with ([EvStart a c t] ++ [EvReturn a c t (Ok [])]). rewrite app_assoc.
        assert (C1 : calls_made ((evs ++ [EvStart a c t]) ++ [EvReturn a c t (Ok [])]) = calls_made evs ++ [(c, t, Ok [])]) by (rewrite calls_made_app, C0; apply app_nil_r).
        constructor; rewrite ?C1; try assumption.
        -- apply follows_return. exact F1.
        -- intros b d v E. destruct (same_caller b a) eqn:Eb; [apply same_caller_eq in Eb; subst b; rewrite W1 in E; discriminate|].
           assert (Nb : b <> a) by (intros ->; rewrite (proj2 (same_caller_eq a a) eq_refl) in Eb; discriminate).
           rewrite (W2 b Nb) in E. destruct (Pe b d v E) as (p & q & -> & S & N). exists p, ((q ++ [EvStart a c t]) ++ [EvReturn a c t (Ok [])]).
           refine (conj _ (conj (silent_snoc b _ (EvReturn a c t (Ok [])) (silent_snoc b _ (EvStart a c t) S Eb) Eb) _)); [rewrite <- !app_assoc; reflexivity|].
           intro A. apply Forall_app. split; [apply Forall_app; split; [exact (N A)|] |]; constructor; try reflexivity; constructor.
        -- apply all_returned_snoc; [exact R1|]. exists evs, []. refine (conj eq_refl (conj (Forall_nil _) (conj (fun _ => Forall_nil _) _))).
           exists a, c, t, evs, []. refine (conj eq_refl (conj (Forall_nil _) (conj _ eq_refl))). exists []. reflexivity.
      * constructor; rewrite ?C0; try assumption. apply P1. reflexivity.
    + pose proof (execute_refused _ _ _ _ _ X) as S1.
      assert (C0 : calls_made (evs ++ [EvReturn a c t (Err e)]) = calls_made evs) by (rewrite calls_made_app; cbn; apply app_nil_r).
      constructor; rewrite ?C0, ?S1; try assumption.
      * apply follows_return. exact Fo.
      * apply (pending_snoc w); [exact Pe|]. intros b d v E. destruct (same_caller b a) eqn:Eb.
        -- apply same_caller_eq in Eb. subst b. rewrite W1 in E. discriminate.
        -- assert (Nb : b <> a) by (intros ->; rewrite (proj2 (same_caller_eq a a) eq_refl) in Eb; discriminate).
           rewrite (W2 b Nb) in E. refine (conj E (conj Eb (fun _ => eq_refl))).
      * apply all_returned_snoc; [exact Re|]. cbn [returned]. apply (refuses (parser_of (the_session w))).
        -- rewrite Up. apply sender_byte. exact By.
        -- unfold execute in X. unfold parser_of. destruct (build_serial_frame _ _) as [p [b|e']]; [discriminate|]. injection X as _ <-. reflexivity.
  - assert (C0 : forall v, calls_made (evs ++ [EvReturn a c t v]) = calls_made evs) by (intro v; rewrite calls_made_app; cbn; apply app_nil_r).
    constructor; rewrite ?C0, ?S0; try assumption.
    + apply follows_return. exact Fo.
    + apply (pending_snoc w); [exact Pe|]. intros b d v E. destruct (same_caller b a) eqn:Eb.
      * apply same_caller_eq in Eb. subst b. rewrite W1 in E. discriminate.
      * assert (Nb : b <> a) by (intros ->; rewrite (proj2 (same_caller_eq a a) eq_refl) in Eb; discriminate).
        rewrite (W2 b Nb) in E. refine (conj E (conj Eb (fun _ => eq_refl))).
    + apply all_returned_snoc; [exact Re|]. destruct (Pe a c t W0) as (p & q & -> & S & N). exists p, q.
      refine (conj eq_refl (conj S (conj N _))). destruct (last_start p a c t q) as (b & d & u & p' & q' & E & Ns & z).
      exists b, d, u, p', q'. refine (conj E (conj Ns (conj z _))). unfold skips. fold (modem_of s). rewrite <- Sk.
      rewrite E in Fo. apply (execute_result_follows _ p' b d u q'); assumption.
Qed.

Lemma map_run_waiting s ps a : waiting (at_work s ps) a = None.
Proof.
  destruct a as [|i]; [reflexivity|]. cbn [waiting at_work bw_threads]. rewrite nth_error_map. destruct (nth_error ps i); reflexivity.
Qed.
Lemma brun_sound lib h s ps ls : is_byte (sp_up (parser_of s)) ->
  forall w evs, brun lib h (at_work s ps) ls = Some (w, evs) -> sound s w evs.
Proof.
  intro By. induction ls as [|l ls IH] using rev_ind; intros w evs E.
  - injection E as <- <-. constructor; cbn; try reflexivity; try (rewrite app_nil_r; reflexivity).
    + intros p a c t q E. destruct p; discriminate.
    + intros a c t E. rewrite map_run_waiting in E. discriminate.
    + intros p a c t r q E. destruct p; discriminate.
  - apply brun_snoc in E. destruct E as (v & e1 & e2 & E & St & ->). apply (kind_sound s v); [exact By | | apply IH; exact E].
    apply (bstep_kind _ _ _ _ _ _ St).
Qed.

(** ** The theorems *)
Lemma responses_none k c t q : no_message q -> responses k c t q = [].
Proof.
  induction q as [|e q IH]; intro M; [reflexivity|]. inversion M as [|? ? Me Mr]; subst.
  destruct e; try discriminate; cbn [responses]; apply IH; exact Mr.
Qed.
Section Run.
Variables (lib : bool) (h : Handlers) (s : Session) (ps : list AProg) (ls : list BLabel) (w : BWorld) (evs : list Event).
Hypothesis By : is_byte (sp_up (r_parser (se_reader s))).
Hypothesis R : brun lib h (at_work s ps) ls = Some (w, evs).

Lemma both_started pre a c t l post : evs = pre ++ EvReturn a c t (Ok l) :: post ->
  exists p q, pre = p ++ EvStart a c t :: q /\ silent a q.
Proof.
  intro E. destruct (so_returned _ _ _ (brun_sound lib h s ps ls By w evs R) _ _ _ _ _ _ E) as (p & q & H & S & _). exists p, q. auto.
Qed.
Lemma both_last p b d u q a c t l post : evs = p ++ EvStart b d u :: q ++ EvReturn a c t (Ok l) :: post -> no_start q ->
  l = collected (skips s) d u q.
Proof.
  intros E N. assert (E2 : evs = (p ++ EvStart b d u :: q) ++ EvReturn a c t (Ok l) :: post) by (rewrite E, <- app_assoc; reflexivity).
  destruct (so_returned _ _ _ (brun_sound lib h s ps ls By w evs R) _ _ _ _ _ _ E2) as (p0 & q0 & _ & _ & _ & b' & d' & u' & p' & q' & H & N' & _ & L).
  apply same_last_start in H; [|assumption|assumption]. destruct H as (-> & -> & -> & _). exact L.
Qed.
Lemma both_callback pre c t l post : evs = pre ++ EvReturn TheCallback c t (Ok l) :: post -> l = [].
Proof.
  intro E. destruct (so_returned _ _ _ (brun_sound lib h s ps ls By w evs R) _ _ _ _ _ _ E) as (p & q & _ & _ & M & b & d & u & p' & q' & _ & _ & (z & Z) & ->).
  specialize (M eq_refl). rewrite Z in M. apply Forall_app in M. destruct M as [_ M]. unfold collected.
  rewrite (responses_none _ _ _ _ M). reflexivity.
Qed.
Lemma both_refused pre a c t e post : evs = pre ++ EvReturn a c t (Err e) :: post -> refused c e.
Proof. intro E. exact (so_returned _ _ _ (brun_sound lib h s ps ls By w evs R) _ _ _ _ _ _ E). Qed.
Lemma both_sent : se_sent (the_session w) = se_sent s ++ outgoing (r_parser (se_reader s)) (calls_made evs).
Proof. exact (so_sent _ _ _ (brun_sound lib h s ps ls By w evs R)). Qed.
End Run.

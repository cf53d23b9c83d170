(** Application threads and callbacks that use the modem at the same time:
    property C81. *)
From Verif Require Import SBoth LBoth LBoth2 PConverse PReenter.

(** ** C81 *)
(** a call that returns was accepted before, and its caller did nothing else in
    between *)
Theorem C81_started : forall lib h s ps ls w evs, is_byte (sp_up (r_parser (se_reader s))) ->
  brun lib h (at_work s ps) ls = Some (w, evs) ->
  forall pre who c t l post, evs = pre ++ EvReturn who c t (Ok l) :: post ->
  exists p q, pre = p ++ EvStart who c t :: q /\ silent who q.
Proof. exact both_started. Qed.
Print Assumptions C81_started.
(** whatever a call returns was collected for the call accepted last, no matter
    by whom: the responses to that one since then, if the final one has come;
    otherwise nothing *)
Theorem C81_last : forall lib h s ps ls w evs, is_byte (sp_up (r_parser (se_reader s))) ->
  brun lib h (at_work s ps) ls = Some (w, evs) ->
  forall p who' c' t' q who c t l post, evs = p ++ EvStart who' c' t' :: q ++ EvReturn who c t (Ok l) :: post -> no_start q ->
  l = collected (skips s) c' t' q.
Proof. exact both_last. Qed.
Print Assumptions C81_last.
(** so a call during which nobody else calls gets its own responses, all of them *)
Theorem C81_own : forall lib h s ps ls w evs, is_byte (sp_up (r_parser (se_reader s))) ->
  brun lib h (at_work s ps) ls = Some (w, evs) ->
  forall p who c t q l post, evs = p ++ EvStart who c t :: q ++ EvReturn who c t (Ok l) :: post -> no_start q ->
  l = collected (skips s) c t q.
Proof. exact (fun lib h s ps ls w evs B R p who c t q l post => both_last lib h s ps ls w evs B R p who c t q who c t l post). Qed.
Print Assumptions C81_own.
(** a call from a callback gets no response, whatever the threads do *)
Theorem C81_callback : forall lib h s ps ls w evs, is_byte (sp_up (r_parser (se_reader s))) ->
  brun lib h (at_work s ps) ls = Some (w, evs) ->
  forall pre c t l post, evs = pre ++ EvReturn TheCallback c t (Ok l) :: post -> l = [].
Proof. exact both_callback. Qed.
Print Assumptions C81_callback.
(** a call raises only if no frame can be built for its command *)
Theorem C81_refused : forall lib h s ps ls w evs, is_byte (sp_up (r_parser (se_reader s))) ->
  brun lib h (at_work s ps) ls = Some (w, evs) ->
  forall pre who c t e post, evs = pre ++ EvReturn who c t (Err e) :: post -> refused c e.
Proof. exact both_refused. Qed.
Print Assumptions C81_refused.
(** one frame per accepted call goes out, in the order of the calls, numbered
    consecutively, nothing else *)
Theorem C81_sent : forall lib h s ps ls w evs, is_byte (sp_up (r_parser (se_reader s))) ->
  brun lib h (at_work s ps) ls = Some (w, evs) ->
  se_sent (the_session w) = se_sent s ++ outgoing (r_parser (se_reader s)) (calls_made evs).
Proof. exact both_sent. Qed.
Print Assumptions C81_sent.

(** A thread reads a file with tag 7 and waits; meanwhile a message with tag 8
    arrives and the callback reacts to it by a command with tag 9. *)
Definition reacts (timeout : Z) : Handlers :=
  mkHandlers (fun _ x => if has_tag 8 x then Exec (read0 9) timeout (fun _ => Finish) else Finish) (fun _ _ => Finish).
Definition app_reads : list AProg := [AExec (read0 7) 10 (fun _ => ADone)].
Definition steps (n : nat) : list BLabel := repeat (BReader RGo) n.
Definition arrives (l : list Z) : list BLabel := map (fun b => BReader (RArrive b)) l.
Definition wire_of (n tag : Z) : list Z := wire [mkSent n 1 [163; tag] (seen tag)].
(** nine bytes, two steps each; the last has one message, handled in one more
    step, and a callback that returns at once *)
Definition interrupted : list BLabel :=
  BThread 0 :: arrives (wire_of 1 8 ++ wire_of 2 7) ++ steps 20 ++ steps 20 ++ [BOver 0].
Definition mixed_up : list BLabel :=
  BThread 0 :: arrives (wire_of 1 8) ++ steps 19 ++ [BReader RTimeout] ++ arrives (wire_of 2 9) ++ steps 20 ++ [BThread 0].

(** one asynchronous call of a callback is enough for a waiting call to miss its
    complete response (which goes to the callback instead) *)
Theorem C81_undisturbed_refuted : ~ (forall lib h s ps ls w evs, is_byte (sp_up (r_parser (se_reader s))) ->
  asynchronous_handlers h -> brun lib h (at_work s ps) ls = Some (w, evs) ->
  forall p i c t q l post, evs = p ++ EvStart (TheThread i) c t :: q ++ EvReturn (TheThread i) c t (Ok l) :: post ->
  silent (TheThread i) q -> l = collected (skips s) c t q).
Proof.
  intro H.
  assert (E : exists w q, brun true (reacts 0) (at_work connected_session app_reads) interrupted
    = Some (w, [] ++ EvStart (TheThread 0) (read0 7) 10 :: q ++ EvReturn (TheThread 0) (read0 7) 10 (Ok []) :: [])
    /\ silent (TheThread 0) q /\ collected false (read0 7) 10 q = [seen 7]).
  { exists (match brun true (reacts 0) (at_work connected_session app_reads) interrupted with Some (w, _) => w | None => at_work connected_session [] end).
    exists [EvMessage (1, seen 8); EvStart TheCallback (read0 9) 0; EvReturn TheCallback (read0 9) 0 (Ok []); EvMessage (1, seen 7)].
    split; [vm_compute; reflexivity|]. split; [repeat constructor | vm_compute; reflexivity]. }
  destruct E as (w & q & E & S & C).
  assert (A : asynchronous_handlers (reacts 0)) by (split; intros s x; cbn; [destruct (has_tag 8 x)|]; repeat constructor; lia).
  assert (B : is_byte (sp_up (r_parser (se_reader connected_session)))) by (unfold is_byte; cbn; lia).
  specialize (H _ _ _ _ _ _ _ B A E [] O _ _ q _ [] eq_refl S). change (skips connected_session) with false in H.
  rewrite C in H. exact (nil_cons H).
Qed.
Print Assumptions C81_undisturbed_refuted.
(** a call may return responses to somebody else's command *)
Theorem C81_own_tag_refuted : ~ (forall lib h s ps ls w evs, is_byte (sp_up (r_parser (se_reader s))) ->
  brun lib h (at_work s ps) ls = Some (w, evs) ->
  forall p i c t q l post d, evs = p ++ EvStart (TheThread i) c t :: q ++ EvReturn (TheThread i) c t (Ok l) :: post ->
  silent (TheThread i) q -> In (MCmd d) l -> c_tag d = c_tag c).
Proof.
  intro H.
  assert (E : exists w q, brun true (reacts 10) (at_work connected_session app_reads) mixed_up
    = Some (w, [] ++ EvStart (TheThread 0) (read0 7) 10 :: q ++ EvReturn (TheThread 0) (read0 7) 10 (Ok [seen 9]) :: [])
    /\ silent (TheThread 0) q).
  { exists (match brun true (reacts 10) (at_work connected_session app_reads) mixed_up with Some (w, _) => w | None => at_work connected_session [] end).
    exists [EvMessage (1, seen 8); EvStart TheCallback (read0 9) 10; EvReturn TheCallback (read0 9) 10 (Ok []); EvMessage (1, seen 9)].
    split; [vm_compute; reflexivity|]. repeat constructor. }
  destruct E as (w & q & E & S).
  assert (B : is_byte (sp_up (r_parser (se_reader connected_session)))) by (unfold is_byte; cbn; lia).
  assert (I9 : In (seen 9) [seen 9]) by (left; reflexivity).
  specialize (H _ _ _ _ _ _ _ B E [] O _ _ q _ [] _ eq_refl S I9). vm_compute in H. discriminate H.
Qed.
Print Assumptions C81_own_tag_refuted.

(** Undisturbed: the thread's call gets its response, while the callback has the
    message with tag 8 (and does not react). *)
Definition idle_callback : Handlers := mkHandlers (fun _ _ => Finish) (fun _ _ => Finish).
Example C81_case : exists w,
  brun true idle_callback (at_work connected_session app_reads)
    (BThread 0 :: arrives (wire_of 1 8 ++ wire_of 2 7) ++ steps 39 ++ [BThread 0])
  = Some (w, [] ++ EvStart (TheThread 0) (read0 7) 10 :: [EvMessage (1, seen 8); EvMessage (1, seen 7)]
                ++ EvReturn (TheThread 0) (read0 7) 10 (Ok [seen 7]) :: [])
  /\ is_byte (sp_up (r_parser (se_reader connected_session)))
  /\ no_start [EvMessage (1, seen 8); EvMessage (1, seen 7)]
  /\ collected (skips connected_session) (read0 7) 10 [EvMessage (1, seen 8); EvMessage (1, seen 7)] = [seen 7]
  /\ session_inbox PCallback (the_session w) = [seen 8].
Proof.
  exists (match brun true idle_callback (at_work connected_session app_reads)
    (BThread 0 :: arrives (wire_of 1 8 ++ wire_of 2 7) ++ steps 39 ++ [BThread 0]) with Some (w, _) => w | None => at_work connected_session [] end).
  split; [vm_compute; reflexivity|]. split; [unfold is_byte; cbn; lia|]. split; [repeat constructor|].
  split; vm_compute; reflexivity.
Qed.

(** The serial interface lemmas in the form of the properties. *)
From Coq Require Import ZifyBool ZifyNat.
From Verif Require Export LSerialCases.
Ltac Zify.zify_post_hook ::= Z.div_mod_to_equations.

Lemma counters_byte skip l : Forall (sent_ok skip) l -> Forall is_byte (map s_counter l).
Proof. induction 1 as [|x l H F IH]; constructor; [apply H | exact IH]. Qed.
Lemma traffic lib chunks p l : Forall (sent_ok (sp_skip p)) l -> sp_buf p ++ concat chunks = wire l -> chunks <> [] ->
  is_byte (sp_down p) ->
  exists p', feeds lib p chunks p' (delivered l) [] /\ sp_buf p' = []
    /\ sp_errs p' = sp_errs p + jumps (sp_down p) (map s_counter l)
    /\ sp_down p' = last (map s_counter l) (sp_down p).
Proof.
  intros F E N B. destruct (feeds_garbage lib chunks p [] l F) as (es & H & _ & Z1); try assumption; try constructor.
  rewrite (Z1 eq_refl) in H. eexists. split; [exact H|]. 
  destruct (counters_errs (map s_counter l) p B (counters_byte _ _ F)) as [D Er].
  cbn [set_buf sp_buf sp_errs sp_down]. auto.
Qed.
Lemma garbage_any lib chunks p g l : Forall (sent_ok (sp_skip p)) l -> no_c0 g -> Forall is_byte g ->
  sp_buf p ++ concat chunks = g ++ wire l -> chunks <> [] ->
  exists p' es, feeds lib p chunks p' (delivered l) es /\ sp_buf p' = [] /\ Forall (fun e => pe_exn e = ParseError) es.
Proof.
  intros F N Fg E Nc. destruct (feeds_garbage lib chunks p g l F N Fg E Nc) as (es & H & Fe & _).
  eexists _, _. split; [exact H|]. auto.
Qed.
Lemma payload_link lib s payloads q : is_byte (sp_up s) -> Forall is_payload payloads -> sp_skip q = true -> sp_buf q = [] ->
  exists fs s', sends s (map Ok payloads) fs s' /\
  forall chunks, concat chunks = concat fs -> chunks <> [] ->
  exists q', feeds lib q chunks q' (map (fun a => (1, MRaw a)) payloads) [] /\ sp_buf q' = [].
Proof.
  intros B F S Bq.
  assert (T : Forall2 (transmits true) (map Ok payloads) (map MRaw payloads)).
  { clear -F. induction F as [|a l P F IH]; constructor; [apply transmits_raw; exact P | exact IH]. }
  destruct (sends_exists _ _ _ T s B) as (fs & s' & H). exists fs, s'. split; [exact H|]. intros chunks E N.
  pose proof (link lib true s _ fs s' q _ chunks H T B S Bq E N) as K. rewrite map_map in K. eexists. split; [exact K | reflexivity].
Qed.
Lemma command_link lib s cs q : is_byte (sp_up s) -> Forall (fun c => command_wf c /\ command_bytes c <= 255) cs ->
  sp_skip q = false -> sp_buf q = [] ->
  exists fs s', sends s (map command_ser cs) fs s' /\
  forall chunks, concat chunks = concat fs -> chunks <> [] ->
  exists q', feeds lib q chunks q' (map (fun c => (1, MCmd (command_received c))) cs) [] /\ sp_buf q' = [].
Proof.
  intros B F S Bq.
  assert (T : Forall2 (transmits false) (map command_ser cs) (map (fun c => MCmd (command_received c)) cs)).
  { clear -F. induction F as [|a l [W L] F IH]; constructor; [apply transmits_command; assumption | exact IH]. }
  destruct (sends_exists _ _ _ T s B) as (fs & s' & H). exists fs, s'. split; [exact H|]. intros chunks E N.
  pose proof (link lib false s _ fs s' q _ chunks H T B S Bq E N) as K. rewrite map_map in K. eexists. split; [exact K | reflexivity].
Qed.
(** a sender and a receiver, in step; [k] frames get lost *)
Lemma header_bytes_free c t payload c' t' :
  firstn 2 (frame c t payload) ++ [c'; t'] ++ skipn 4 (frame c t payload) = frame c' t' payload.
Proof. unfold frame. destruct (calculate_crc payload). reflexivity. Qed.
Lemma receive_one lib p x : sent_ok (sp_skip p) x -> sp_buf p = [] ->
  exists q r, sparse lib p (sent_frame x) = (q, Ok r) /\ pr_msgs r = [(s_type x, s_msg x)] /\ pr_errors r = [] /\ sp_buf q = [].
Proof.
  intros O B. pose proof (receive_wire lib p [x]) as K. unfold wire in K.
  cbn [flat_map] in K. rewrite app_nil_r in K. rewrite K.
  - eexists _, _. split; [reflexivity|]. repeat split. rewrite counters_buf. exact B.
  - repeat constructor. all: apply O.
  - exact B.
Qed.
Lemma header_free lib p a m c c' t' : transmits (sp_skip p) a m -> sp_buf p = [] -> is_byte c' -> is_byte t' -> t' <> 5 ->
  exists bs, a = Ok bs /\
  let changed := firstn 2 (frame c 1 bs) ++ [c'; t'] ++ skipn 4 (frame c 1 bs) in
  exists q r, sparse lib p changed = (q, Ok r) /\ pr_msgs r = [(t', if t' =? 4 then MRaw bs else m)]
    /\ pr_errors r = [] /\ sp_buf q = [].
Proof.
  intros T B Bc Bt N. destruct (Z.eqb_spec t' 4) as [->|N4].
  - destruct T as (bs & -> & P & _). exists bs. split; [reflexivity|]. cbv zeta. rewrite header_bytes_free.
    apply (receive_one lib p (mkSent c' 4 bs (MRaw bs))); [apply sent_logging; assumption | exact B].
  - destruct (sent_type _ _ _ c' t' T Bc Bt N4 N) as (bs & -> & O). exists bs. split; [reflexivity|]. cbv zeta.
    rewrite header_bytes_free. exact (receive_one lib p _ O B).
Qed.
Lemma delivered_between lib chunks p before m after : 
  Forall (sent_ok (sp_skip p)) before -> Forall (sent_ok (sp_skip p)) after ->
  sent_ok (sp_skip p) m -> sp_buf p ++ concat chunks = wire before ++ sent_frame m ++ wire after -> chunks <> [] ->
  exists p', feeds lib p chunks p' (delivered before ++ (s_type m, s_msg m) :: delivered after) [] /\ sp_buf p' = [].
Proof.
  intros Fb Fa O E N.
  destruct (feeds_garbage lib chunks p [] (before ++ m :: after)) as (es & H & _ & Z1); try assumption; try constructor.
  - apply Forall_app. split; [exact Fb | constructor; assumption].
  - rewrite E. unfold wire. rewrite flat_map_app. reflexivity.
  - rewrite (Z1 eq_refl) in H. unfold delivered in H. rewrite !map_app in H. eexists. split; [exact H | reflexivity].
Qed.
Lemma accounted lib p x p' r : byte_in p -> Forall is_byte x -> sparse lib p x = (p', Ok r) ->
  pr_left r = 8 * zlen (sp_buf p') /\
  pr_parsed r + 8 * fold_right (fun e a => pe_skipped e + a) 0 (pr_errors r) + pr_left r = 8 * zlen (sp_buf p ++ x)
  /\ Forall (fun e => 0 < pe_skipped e) (pr_errors r).
Proof. intros B F E. destruct (parse_returns lib p x p' (Ok r) B F E) as (_ & _ & _ & L & A & S). auto. Qed.

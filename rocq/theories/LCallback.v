From Coq Require Import Lia ZifyBool.
From Verif Require Import MBase Bits LSerial SCallback LModem.

Lemma dispatch_raises_iff cbs m t x : dispatch_raises cbs m (t, x) = true <-> raises_for cbs m t x.
Proof.
  unfold dispatch_raises, raises_for.
  assert (IR : is_response m t x = true <-> t <= 3 /\ is_answer m x).
  { unfold is_response, is_answer, answers. destruct x as [z|z|c].
    - split; [discriminate | intros (_ & _ & c & E & _); discriminate E].
    - split; [discriminate | intros (_ & _ & c & E & _); discriminate E].
    - rewrite !Bool.andb_true_iff, Bool.negb_true_iff. unfold tag_eqb. split.
      + intros [[A B] C]. split; [lia|]. split; [exact A|]. exists c. split; [reflexivity|].
        destruct (m_tag m), (c_tag c); try discriminate B; [f_equal; lia | reflexivity].
      + intros (A & B & c' & E & T). injection E as <-. rewrite T. repeat split; [exact B | | lia].
        destruct (m_tag m); [lia | reflexivity]. }
  split.
  - intros H. destruct (is_response m t x) eqn:R; [discriminate H|].
    assert (NR : ~ (t <= 3 /\ is_answer m x)) by (intros Q; apply IR in Q; congruence).
    destruct (m_has_cb m && m_connected m && (t <=? 3)) eqn:C.
    + apply Bool.andb_true_iff in C as [C C3]. apply Bool.andb_true_iff in C as [C1 C2]. left. split; [|exact H].
      apply goes_callback; [lia | intros Q; apply NR; split; [lia | exact Q] | exact C1 | exact C2].
    + destruct (t =? 5) eqn:T; [|discriminate H]. destruct (m_has_rbcb m) eqn:B; [|discriminate H].
      right. split; [|exact H]. apply goes_reboot_callback; [lia | exact B].
  - intros [[G H] | [G H]]; inversion G; subst.
    + destruct (is_response m t x) eqn:R; [destruct (proj1 IR eq_refl) as [_ ?]; contradiction|].
      replace (m_has_cb m && m_connected m && (t <=? 3)) with true by (destruct (m_has_cb m), (m_connected m); try congruence; lia). exact H.
    + destruct (is_response m 5 x) eqn:R; [destruct (proj1 IR eq_refl) as [? _]; lia|].
      replace (m_has_cb m && m_connected m && (5 <=? 3)) with false by (destruct (m_has_cb m), (m_connected m); reflexivity).
      cbn [Z.eqb Pos.eqb]. match goal with E : m_has_rbcb m = true |- _ => rewrite E end. exact H.
Qed.

Lemma dispatch_all_spec cbs msgs : forall m,
  (no_raise cbs m msgs /\ dispatch_all cbs m msgs = (handled m msgs, true))
  \/ exists before t x rest, first_raise cbs m msgs before t x rest
       /\ dispatch_all cbs m msgs = (handled m (before ++ [(t, x)]), false).
Proof.
  induction msgs as [|[t x] ms IH]; intros m.
  - left. split; [|reflexivity]. intros [|? ?] ? ? ? E; discriminate E.
  - cbn [dispatch_all]. destruct (dispatch_raises cbs m (t, x)) eqn:D.
    + right. exists [], t, x, ms. split; [|reflexivity]. split; [reflexivity|]. split; [|apply dispatch_raises_iff, D].
      intros [|? ?] ? ? ? E; discriminate E.
    + assert (N : ~ raises_for cbs m t x) by (intros Q; apply dispatch_raises_iff in Q; congruence).
      assert (K : forall l, no_raise cbs (dispatch m (t, x)) l -> no_raise cbs m ((t, x) :: l)).
      { intros l H [|b before] t' x' rest E; cbn in E.
        - injection E as <- <- <-. exact N.
        - injection E as <- E. apply (H before t' x' rest E). }
      destruct (IH (dispatch m (t, x))) as [[H E] | (before & t' & x' & rest & (E1 & H & F) & E)].
      * left. split; [apply K, H | exact E].
      * right. exists ((t, x) :: before), t', x', rest. split; [|exact E].
        split; [rewrite E1; reflexivity|]. split; [apply K, H | exact F].
Qed.

Lemma chunk_cb_dead lib cbs chunks : forall r, r_alive r = false -> read_chunks_cb lib cbs r chunks = r.
Proof.
  induction chunks as [|c cs IH]; intros r D; [reflexivity|]. cbn. unfold reader_chunk_cb at 2. rewrite D. apply IH, D.
Qed.

Lemma first_raise_not cbs m msgs before t x rest : first_raise cbs m msgs before t x rest -> ~ no_raise cbs m msgs.
Proof. intros (E & _ & R) N. exact (N _ _ _ _ E R). Qed.

(** the messages of a parse call *)
Definition plain (lib : bool) (r r' : Reader) (chunk : list Z) : Prop := r' = reader_chunk lib r chunk.

Lemma callbacks_run lib cbs chunks : forall r,
  read_chunks_cb lib cbs r chunks = read_chunks lib r chunks
  \/ exists before chunk after p res msgs t x rest,
       chunks = before ++ chunk :: after
       /\ read_chunks_cb lib cbs r before = read_chunks lib r before
       /\ r_alive (read_chunks lib r before) = true /\ chunk <> []
       /\ sparse lib (r_parser (read_chunks lib r before)) chunk = (p, Ok res)
       /\ first_raise cbs (r_modem (read_chunks lib r before)) (pr_msgs res) msgs t x rest
       /\ read_chunks_cb lib cbs r chunks
          = mkReader p (handled (r_modem (read_chunks lib r before)) (msgs ++ [(t, x)])) false.
Proof.
  induction chunks as [|c cs IH]; intros r; [left; reflexivity|].
  change (read_chunks_cb lib cbs r (c :: cs)) with (read_chunks_cb lib cbs (reader_chunk_cb lib cbs r c) cs).
  change (read_chunks lib r (c :: cs)) with (read_chunks lib (reader_chunk lib r c) cs).
  assert (Q : reader_chunk_cb lib cbs r c = reader_chunk lib r c
    \/ exists p res msgs t x rest, r_alive r = true /\ c <> [] /\ sparse lib (r_parser r) c = (p, Ok res)
       /\ first_raise cbs (r_modem r) (pr_msgs res) msgs t x rest
       /\ reader_chunk_cb lib cbs r c = mkReader p (handled (r_modem r) (msgs ++ [(t, x)])) false).
  { unfold reader_chunk_cb, reader_chunk. destruct (r_alive r); [|left; reflexivity]. destruct c as [|b c]; [left; reflexivity|].
    destruct (sparse lib (r_parser r) (b :: c)) as [p [res|e]] eqn:S; [|left; reflexivity].
    destruct (dispatch_all_spec cbs (pr_msgs res) (r_modem r)) as [[_ E] | (before & t & x & rest & F & E)].
    - left. rewrite E. reflexivity.
    - right. exists p, res, before, t, x, rest. rewrite E. repeat split; try assumption; try discriminate; apply F. }
  destruct Q as [E | (p & res & msgs & t & x & rest & A & N & S & F & E)].
  - rewrite E. destruct (IH (reader_chunk lib r c)) as [H | (before & chunk & after & p & res & msgs & t & x & rest & E1 & E2 & A & N & S & F & H)].
    + left. exact H.
    + right. exists (c :: before), chunk, after, p, res, msgs, t, x, rest. rewrite E1.
      change (read_chunks_cb lib cbs r (c :: before)) with (read_chunks_cb lib cbs (reader_chunk_cb lib cbs r c) before).
      change (read_chunks lib r (c :: before)) with (read_chunks lib (reader_chunk lib r c) before). rewrite E.
      repeat split; try assumption; try apply F. rewrite <- E1. exact H.
  - right. exists [], c, cs, p, res, msgs, t, x, rest. cbn [read_chunks read_chunks_cb fold_left].
    repeat split; try assumption; try apply F. rewrite E. apply chunk_cb_dead. reflexivity.
Qed.

(** a callback that raised has killed the thread *)
Lemma callbacks_alive lib cbs chunks r : r_alive (read_chunks_cb lib cbs r chunks) = true ->
  read_chunks_cb lib cbs r chunks = read_chunks lib r chunks.
Proof.
  intros A. destruct (callbacks_run lib cbs chunks r) as [E | (? & ? & ? & ? & ? & ? & ? & ? & ? & _ & _ & _ & _ & _ & _ & E)]; [exact E|].
  rewrite E in A. discriminate A.
Qed.
Lemma callbacks_benign lib cbs chunks : (forall m x, cb_raises cbs m x = false) -> (forall m x, rbcb_raises cbs m x = false) ->
  forall r, read_chunks_cb lib cbs r chunks = read_chunks lib r chunks.
Proof.
  intros H1 H2 r. destruct (callbacks_run lib cbs chunks r) as [E | (? & ? & ? & ? & ? & ? & ? & ? & ? & _ & _ & _ & _ & _ & (_ & _ & [[_ F]|[_ F]]) & _)];
    [exact E | congruence | congruence].
Qed.
(** nothing is delivered after the call that raised: each place has a prefix of
    what it would have with callbacks that do not raise *)
Lemma inbox_grows p m tx : m_resp (dispatch m tx) = m_resp m /\ exists l, inbox p (dispatch m tx) = inbox p m ++ l.
Proof.
  destruct tx as [t x]. unfold dispatch.
  assert (Same : exists l, inbox p m = inbox p m ++ l) by (exists []; symmetry; apply app_nil_r).
  destruct (is_response m t x).
  - cbn. split; [reflexivity|]. destruct p; cbn; try (exists []; symmetry; apply app_nil_r).
    generalize (m_resp m). induction (m_heap m) as [|l h IH]; intros r; [exists []; destruct r; reflexivity|].
    destruct r as [|r]; cbn; [exists [x]; reflexivity | apply IH].
  - unfold dispatch_other. split.
    + destruct (m_has_cb m && m_connected m && (t <=? 3)); [reflexivity|]. destruct (t =? 5); [destruct (m_has_rbcb m); reflexivity|].
      destruct (t =? 4); [reflexivity|]. destruct (t <=? 3); reflexivity.
    + destruct (m_has_cb m && m_connected m && (t <=? 3)); [|destruct (t =? 5); [destruct (m_has_rbcb m)|destruct (t =? 4); [|destruct (t <=? 3)]]];
        destruct p; cbn; try exact Same; try (exists []; symmetry; apply app_nil_r); exists [x]; reflexivity.
Qed.
Lemma handled_grows p msgs : forall m, exists l, inbox p (handled m msgs) = inbox p m ++ l.
Proof.
  induction msgs as [|tx ms IH]; intros m; [exists []; symmetry; apply app_nil_r|].
  destruct (IH (dispatch m tx)) as [l E]. destruct (inbox_grows p m tx) as [_ [l0 E0]].
  exists (l0 ++ l). change (handled m (tx :: ms)) with (handled (dispatch m tx) ms). rewrite E, E0, app_assoc. reflexivity.
Qed.
Lemma chunks_grow lib p chunks : forall r, exists l, inbox p (r_modem (read_chunks lib r chunks)) = inbox p (r_modem r) ++ l.
Proof.
  induction chunks as [|c cs IH]; intros r; [exists []; symmetry; apply app_nil_r|].
  change (read_chunks lib r (c :: cs)) with (read_chunks lib (reader_chunk lib r c) cs).
  destruct (IH (reader_chunk lib r c)) as [l E]. rewrite E.
  assert (G : exists l0, inbox p (r_modem (reader_chunk lib r c)) = inbox p (r_modem r) ++ l0).
  { unfold reader_chunk. destruct (r_alive r); [|exists []; symmetry; apply app_nil_r]. destruct c as [|b c]; [exists []; symmetry; apply app_nil_r|].
    destruct (sparse lib (r_parser r) (b :: c)) as [q [res|e]]; [apply handled_grows | exists []; symmetry; apply app_nil_r]. }
  destruct G as [l0 E0]. exists (l0 ++ l). rewrite E0, app_assoc. reflexivity.
Qed.
Lemma handled_app m a b : handled m (a ++ b) = handled (handled m a) b.
Proof. apply fold_left_app. Qed.
Lemma callbacks_prefix lib cbs chunks r p :
  prefix (inbox p (r_modem (read_chunks_cb lib cbs r chunks))) (inbox p (r_modem (read_chunks lib r chunks))).
Proof.
  unfold prefix.
  destruct (callbacks_run lib cbs chunks r) as [E | (before & chunk & after & q & res & msgs & t & x & rest & E1 & E2 & A & N & S & (F & _) & E)].
  - rewrite E. exists []. symmetry. apply app_nil_r.
  - rewrite E, E1. cbn [r_modem]. unfold read_chunks at 1. rewrite fold_left_app. cbn [fold_left].
    change (fold_left (reader_chunk lib) before r) with (read_chunks lib r before).
    change (fold_left (reader_chunk lib) after ?s) with (read_chunks lib s after).
    destruct (chunks_grow lib p after (reader_chunk lib (read_chunks lib r before) chunk)) as [l0 E0]. rewrite E0.
    unfold reader_chunk. rewrite A. destruct chunk as [|b chunk]; [congruence|]. rewrite S. cbn [r_modem].
    rewrite F. change (fold_left dispatch ?a ?m) with (handled m a).
    replace (msgs ++ (t, x) :: rest) with ((msgs ++ [(t, x)]) ++ rest) by (rewrite <- app_assoc; reflexivity).
    rewrite handled_app. destruct (handled_grows p rest (handled (r_modem (read_chunks lib r before)) (msgs ++ [(t, x)]))) as [l1 E3].
    rewrite E3. exists (l1 ++ l0). symmetry. apply app_assoc.
Qed.
(** and the message for which it raised was still passed to the callback *)
Lemma callbacks_dead_result lib cbs chunks r : r_alive (read_chunks_cb lib cbs r chunks) = false ->
  forall more, read_chunks_cb lib cbs r (chunks ++ more) = read_chunks_cb lib cbs r chunks.
Proof.
  intros D more. unfold read_chunks_cb. rewrite fold_left_app. apply (chunk_cb_dead lib cbs more). exact D.
Qed.

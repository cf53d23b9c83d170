(** Lemmas for C103: one text, and the entries. *)
From Coq Require Import String.
From Verif Require Import LBits LCause LCause2.
From Verif Require Import SCause SWhere LRun LSerial LReport LReport2 LTotal LTags LWhere LWhere2 LWhere3 LWhere4 LWhere5 LWhere6.
From Coq Require Import Lia.
Close Scope string_scope.
Open Scope list_scope.
Open Scope Z_scope.

Lemma field_one s a b v w : field s a b v -> field s a b w -> v = w.
Proof. intros (_ & H) (_ & K). congruence. Qed.
Lemma first_operation t n : first_byte t n -> operation t (n mod 64).
Proof.
  unfold first_byte, operation. intros ((P1 & P2 & P3) & V). split; [lia|].
  replace (pos t + 8 - pos t)%nat with 8%nat in V by lia. rewrite Nat.sub_diag in V. cbn [skipn] in V.
  replace (pos t + 8 - (pos t + 2))%nat with 6%nat by lia. replace (pos t + 2 - pos t)%nat with 2%nat by lia. rewrite <- V.
  destruct (bits t) as [|x0 [|x1 [|x2 [|x3 [|x4 [|x5 [|x6 [|x7 r]]]]]]]]; cbn [List.length] in P3; try lia. cbn [firstn skipn].
  destruct x0, x1, x2, x3, x4, x5, x6, x7; reflexivity.
Qed.
Lemma places_one c d n k : In (n, k) (class_places c) -> In (n, k) (class_places d) -> c = d.
Proof.
  intros H K. destruct c, d; try reflexivity; exfalso; cbn [class_places In] in H, K;
    repeat match goal with H : _ \/ _ |- _ => destruct H as [H|H] end; try contradiction; congruence.
Qed.
Lemma places_known c n k : In (n, k) (class_places c) -> In n known_actions /\ (n = 50 /\ (k = 16%nat \/ k = 21%nat \/ k = 24%nat \/ k = 36%nat \/ k = 40%nat) \/ (n = 34 /\ (k <> 24)%nat) \/ (n <> 50 /\ n <> 34 /\ n <> 52)) /\ (k <> 8)%nat.
Proof.
  intro H. destruct c; cbn [class_places In] in H;
    repeat match goal with H : _ \/ _ |- _ => destruct H as [H|H] end; try contradiction; injection H as <- <-; unfold known_actions; cbn [In]; lia.
Qed.
Lemma tells_one t k x y : tells_at t k x -> tells_at t k y -> x = y.
Proof.
  assert (OP : forall n m, operation t n -> operation t m -> n = m) by (intros n m; apply field_one).
  assert (FI : first_byte t (64 + 34) -> operation t 34) by (intro H; apply (first_operation _ _ H)).
  intros H K.
  destruct H as [n O N|F O|F O|F O|i F G N|F G|c n k v O P F N]; inversion K as [n' O' N'|F' O'|F' O'|F' O'|i' F' G' N'|F' G'|c' n' k' v' O' P' F' N']; subst; clear K;
    try reflexivity;
    try (match goal with F : first_byte t _ |- _ => apply FI in F end; try (match goal with F : first_byte t _ |- _ => apply FI in F end));
    try (match goal with P : In (_, _) (class_places _) |- _ => pose proof (places_known _ _ _ P) as (? & ? & ?) end);
    try lia.
  - rewrite (OP _ _ O O'). reflexivity.
  - rewrite (OP _ _ O O') in N. exfalso. apply N. unfold known_actions. cbn [In]. tauto.
  - rewrite (OP _ _ O O') in N. exfalso. apply N. unfold known_actions. cbn [In]. tauto.
  - rewrite (OP _ _ O O') in N. exfalso. apply N. unfold known_actions. cbn [In]. tauto.
  - rewrite (OP _ _ O' O) in N'. exfalso. apply N'. unfold known_actions. cbn [In]. tauto.
  - specialize (OP _ _ O O'). discriminate.
  - specialize (OP _ _ O O'). discriminate.
  - rewrite (OP _ _ O' O) in N'. exfalso. apply N'. unfold known_actions. cbn [In]. tauto.
  - specialize (OP _ _ O O'). discriminate.
  - specialize (OP _ _ O O'). discriminate.
  - rewrite (OP _ _ O' O) in N'. exfalso. apply N'. unfold known_actions. cbn [In]. tauto.
  - specialize (OP _ _ O O'). discriminate.
  - specialize (OP _ _ O O'). discriminate.
  - rewrite (field_one _ _ _ _ _ G G'). reflexivity.
  - rewrite (field_one _ _ _ _ _ G G') in N. exfalso. apply N. cbn [In]. tauto.
  - specialize (OP _ _ F O'). lia.
  - rewrite (field_one _ _ _ _ _ G' G) in N'. exfalso. apply N'. cbn [In]. tauto.
  - specialize (OP _ _ F O'). lia.
  - specialize (OP _ _ F' O). lia.
  - specialize (OP _ _ F' O). lia.
  - pose proof (OP _ _ O O'). subst n'. pose proof (places_one _ _ _ _ P P'). subst c'. rewrite (field_one _ _ _ _ _ F F'). reflexivity.
Qed.

(** ** The payload *)
Lemma alp_explains n s e t p : (pos s mod 8 = 0)%nat -> alp_where n s = Failed e t p -> ~ asks_for_more e -> e <> AssertNoMsg -> explains n s e t p.
Proof.
  intros M E A N. split; [apply (refused n s e t p M E A)|]. destruct t as [t|]; [apply (alp_says n s e t p E)|].
  destruct (alp_silent _ _ _ _ E) as [K|[K|K]].
  - exfalso. pose proof (alp_total n s M) as T. rewrite (alp_err _ _ _ _ _ E) in T. destruct K as [-> | ->]; destruct T as [T _]; discriminate T.
  - destruct K as [K|K]; contradiction.
  - exact K.
Qed.
Lemma payload_frame c t payload rest : is_byte c -> is_byte t -> is_payload payload -> Forall is_byte rest ->
  payload_raises (frame c t payload ++ rest) =
  match alp_where (zlen payload) (St 56 (bytes_bits (payload ++ rest))) with Failed _ t p => Some (t, p) | Done _ _ => None end.
Proof.
  intros Bc Bt [Fp Lp] Fr. pose proof (calc_bytes payload) as [Bh Bl]. unfold frame. destruct (calculate_crc payload) as [h l]. cbn [fst snd app] in *.
  unfold payload_raises. set (buf := _ :: _ :: _).
  assert (E : header_fields (zlen buf) (stream_of buf) = Ok ((c, t, zlen payload, h, l, payload), St 56 (bytes_bits (payload ++ rest)))).
  { unfold buf. rewrite header_full; try assumption;
    [|pose proof (zlen_nonneg payload); unfold is_byte; lia | apply Forall_app; auto].
    rewrite !zlen_cons, zlen_app. pose proof (zlen_nonneg rest).
    replace (_ <? zlen payload) with false by lia. replace (_ <? zlen payload) with false by lia.
    rewrite firstn_app_exact by (unfold zlen; lia). reflexivity. }
  rewrite E. reflexivity.
Qed.
Lemma entry_header r c : says r c -> error_and_pos r = [(Some (fst (wording c)), snd (wording c))].
Proof.
  intros (rp & R & E). unfold error_and_pos. unfold entry in E. rewrite R in E |- *. cbn [map] in *. injection E as E. rewrite E.
  destruct (wording c) as [w q]. reflexivity.
Qed.
Lemma frame_parts c t payload rest : Forall is_byte (frame c t payload ++ rest) -> is_byte c /\ is_byte t /\ is_payload payload /\ Forall is_byte rest.
Proof.
  unfold frame. destruct (calculate_crc payload) as [h l]. cbn [app]. intro F.
  inversion_clear F as [|? ? _ F1]. inversion_clear F1 as [|? ? _ F2]. inversion_clear F2 as [|? ? Bc F3]. inversion_clear F3 as [|? ? Bt F4].
  inversion_clear F4 as [|? ? Bn F5]. inversion_clear F5 as [|? ? _ F6]. inversion_clear F6 as [|? ? _ F7].
  apply Forall_app in F7 as [Fp Fr]. unfold is_byte in Bn. refine (conj Bc (conj Bt (conj (conj Fp _) Fr))). lia.
Qed.
Lemma entry_payload lib p x q rs r : byte_in p -> Forall is_byte x -> parse_rounds lib p x = (q, rs) -> In r rs -> blames_payload r ->
  exists c t payload rest e text k, ro_buffer r = frame c t payload ++ rest /\ map rp_exn (report r) = [e] /\ error_and_pos r = [(text, k)]
  /\ ((lib = false /\ e = BoolEof) \/ explains (zlen payload) (St 56 (bytes_bits (payload ++ rest))) e text k).
Proof.
  intros B F E I (rp & c & t & payload & rest & e & R & En & Eb & T4 & T5 & Ea & Er).
  destruct (round_outcome _ _ _ _ _ _ B F E I) as (N & FB & o & a & A & Oa). rewrite Eb in FB. destruct (frame_parts _ _ _ _ FB) as (Bc & Bt & P & Fr).
  pose proof (alp_same (zlen payload) (St 56 (bytes_bits (payload ++ rest)))) as Sa. rewrite Ea in Sa.
  destruct (alp_where (zlen payload) (St 56 (bytes_bits (payload ++ rest)))) as [cc ss|e' text k] eqn:X; [discriminate Sa|]. cbn [erase] in Sa. injection Sa as ->.
  exists c, t, payload, rest, e, text, k. split; [exact Eb|]. split; [rewrite R; cbn [map]; rewrite Er; reflexivity|]. split.
  - unfold error_and_pos. rewrite R. cbn [map]. unfold entry in En. rewrite R in En. cbn [map] in En. injection En as En. rewrite En, Eb, payload_frame, X by assumption. reflexivity.
  - assert (Q : is_read_error lib e = false /\ no_args e = false).
    { unfold report in R. destruct a as [[[mt m] n]|e0]; rewrite Oa in R; [discriminate R|]. destruct (is_read_error lib e0) eqn:R1; [discriminate R|].
      destruct (no_args e0) eqn:R2; [discriminate R|]. injection R as <-. cbn [rp_exn] in Er. subst e0. split; assumption. }
    destruct Q as [Q1 Q2]. assert (e = BoolEof \/ e <> BoolEof) as [->|NB] by (destruct e; (left; reflexivity) || (right; discriminate)).
    + left. split; [destruct lib; [discriminate Q1 | reflexivity] | reflexivity].
    + right. apply alp_explains; [reflexivity | exact X | | intros ->; discriminate Q2]. intros [-> | ->]; [discriminate Q1 | contradiction].
Qed.

(** Witnesses and further cases for the serial interface. *)
From Coq Require Import ZifyBool ZifyNat.
From Verif Require Export LCrc.
Ltac Zify.zify_post_hook ::= Z.div_mod_to_equations.

(** ** One ALP frame can hold back about a gigabyte *)
Definition greedy : list Z := [4; 64; 0; 255; 255; 255; 255].
Lemma greedy_data r : zlen r < 8 * 1073741823 -> data_parse (St 64 (bytes_bits [64; 0; 255; 255; 255; 255] ++ r)) = Err ReadError.
Proof.
  intros L. unfold data_parse.
  rewrite (bindp_ok offset_parse _ _ (mkOffset 64 (mkLength 0)) (St 80 (bytes_bits [255; 255; 255; 255] ++ r))) by reflexivity.
  rewrite (bindp_ok length_parse _ _ (mkLength 1073741823) (St 112 r)) by reflexivity.
  unfold bindp, read_bytes. cbn [bits len_value]. replace (zlen r <? _) with true by lia. reflexivity.
Qed.
Lemma greedy_action r : zlen r < 8 * 1073741823 -> parse_action (St 56 (bytes_bits greedy ++ r)) = Err ReadError.
Proof.
  intros L. unfold parse_action.
  rewrite (bindp_ok read_bool _ _ false (St 57 ([false;false;false;false;true;false;false] ++ [] ++ bytes_bits [64; 0; 255; 255; 255; 255] ++ r))) by reflexivity.
  rewrite (bindp_ok read_bool _ _ false (St 58 ([false;false;false;true;false;false] ++ [] ++ bytes_bits [64; 0; 255; 255; 255; 255] ++ r))) by reflexivity.
  rewrite (bindp_ok (read_uint 6) _ _ 4 (St 64 (bytes_bits [64; 0; 255; 255; 255; 255] ++ r))) by reflexivity.
  change (4 =? 1) with false. change (4 =? 4) with true. cbv iota. unfold parse_regular, bindp at 1.
  rewrite greedy_data by exact L. reflexivity.
Qed.
Lemma greedy_alp x : Forall is_byte x -> zlen x < 1073741823 ->
  alp_parse 7 (St 56 (bytes_bits (greedy ++ x))) = Err ReadError.
Proof.
  intros F L. rewrite bytes_bits_app. unfold alp_parse. change (7 =? 0) with false. cbv iota.
  unfold bindp at 1. cbn [parse_actions]. change (0 <? 7) with true. cbv iota. cbn [bits pos].
  rewrite (bindp_ok bytepos _ _ 7 (St 56 (bytes_bits greedy ++ bytes_bits x))) by reflexivity.
  unfold bindp at 1. rewrite greedy_action; [reflexivity|]. unfold zlen in *. rewrite bytes_bits_length. lia.
Qed.
Lemma frame_wait lib p c t payload rest : sp_buf p = [] -> is_byte c -> is_byte t -> t <> 4 -> t <> 5 ->
  is_payload payload -> Forall is_byte rest -> sp_skip p = false ->
  alp_parse (zlen payload) (St 56 (bytes_bits (payload ++ rest))) = Err ReadError ->
  sparse lib p (frame c t payload ++ rest) =
    (set_buf (bump p c) (frame c t payload ++ rest),
     Ok (mkPR [] 0 (8 * zlen (frame c t payload ++ rest)) [])).
Proof.
  intros B Bc Bt N4 N5 P F S A.
  assert (Fb : Forall is_byte (frame c t payload ++ rest)) by (apply Forall_app; split; [apply frame_bytes; assumption | exact F]).
  assert (R : runs lib (sp_skip p) (sp_buf p ++ frame c t payload ++ rest) [] [] (olist (Some c)) 0 false (frame c t payload ++ rest)).
  { rewrite B, S. cbn [app]. eapply (runs_wait lib false _ (Some c) ReadError).
    - unfold frame. destruct (calculate_crc payload). discriminate.
    - rewrite attempt_frame by (assumption || apply calc_bytes). rewrite body_alp, A by (assumption || reflexivity). reflexivity.
    - reflexivity. }
  rewrite (sparse_runs _ _ _ _ _ _ _ _ _ ltac:(rewrite B; constructor) Fb R). reflexivity.
Qed.
Lemma retention lib p c x : sp_buf p = [] -> sp_skip p = false -> is_byte c -> Forall is_byte x -> zlen x < 1073741823 ->
  exists p' r, sparse lib p (frame c 1 greedy ++ x) = (p', Ok r) /\ pr_msgs r = [] /\ pr_errors r = []
    /\ sp_buf p' = frame c 1 greedy ++ x.
Proof.
  intros B S Bc F L. rewrite frame_wait; try assumption; try lia.
  - eexists _, _. split; [reflexivity|]. auto.
  - unfold is_byte. lia.
  - split; [|unfold zlen; cbn; lia]. repeat apply Forall_cons; try apply Forall_nil; unfold is_byte; lia.
  - change (zlen greedy) with 7. apply greedy_alp; assumption.
Qed.

(** ** Poison behind good traffic *)
Lemma poison_loses lib p l c t payload rest : sp_buf p = [] -> sp_skip p = false -> Forall (sent_ok false) l ->
  is_byte c -> is_byte t -> is_payload payload -> Forall is_byte rest -> t <> 4 -> t <> 5 ->
  alp_parse (zlen payload) (St 56 (bytes_bits (payload ++ rest))) = Err AssertNoMsg ->
  (exists p', sparse lib p (wire l ++ frame c t payload ++ rest) = (p', Err IndexError)
     /\ sp_buf p' = frame c t payload ++ rest)
  /\ (exists p' r, sparse lib p (wire l) = (p', Ok r) /\ pr_msgs r = delivered l).
Proof.
  intros B S F Bc Bt P Fr N4 N5 A. split.
  - assert (Fb : Forall is_byte (frame c t payload ++ rest)) by (apply Forall_app; split; [apply frame_bytes; assumption | exact Fr]).
    assert (R0 : runs lib false (frame c t payload ++ rest) [] [] (olist (Some c)) 0 true (frame c t payload ++ rest)).
    { eapply (runs_crash lib false _ (Some c) AssertNoMsg).
      - unfold frame. destruct (calculate_crc payload). discriminate.
      - rewrite attempt_frame by (assumption || apply calc_bytes). rewrite body_alp, A by (assumption || reflexivity). reflexivity.
      - reflexivity.
      - reflexivity. }
    pose proof (runs_wire lib false l _ _ _ _ _ _ _ F Fb R0) as R.
    assert (Fw : Forall is_byte (wire l ++ frame c t payload ++ rest)) by (apply Forall_app; split; [eapply wire_bytes; exact F | exact Fb]).
    rewrite <- S in R. change (wire l ++ frame c t payload ++ rest) with ([] ++ (wire l ++ frame c t payload ++ rest)) in R.
    rewrite <- B in R at 1.
    rewrite (sparse_runs _ _ _ _ _ _ _ _ _ ltac:(rewrite B; constructor) Fw R). eexists. split; reflexivity.
  - rewrite receive_wire; [|rewrite S; exact F|exact B]. eexists _, _. split; reflexivity.
Qed.

(** ** Garbage and traffic in one chunk *)
Lemma garbage_once lib p g l : Forall (sent_ok (sp_skip p)) l -> no_c0 g -> Forall is_byte g -> g <> [] -> sp_buf p = [] ->
  exists p', sparse lib p (g ++ wire l) = (p', Ok (mkPR (delivered l) (8 * zlen (wire l)) 0 [mkPErr ParseError (zlen g)]))
    /\ sp_buf p' = [].
Proof.
  intros F N Fg Ng B. destruct (runs_garbage lib (sp_skip p) l g F N Fg (g ++ wire l) [] (app_nil_r _))
    as (g' & l1 & l2 & es & pd & fin & El & Ng' & Fg' & Ef & R & Ee & Zn).
  destruct (Zn eq_refl) as [-> ->]. rewrite app_nil_r in El. subst l1.
  assert (Fx : Forall is_byte (g ++ wire l)) by (apply Forall_app; split; [exact Fg | eapply wire_bytes; exact F]).
  assert (Es : es = [mkPErr ParseError (zlen g)]).
  { rewrite Ee. destruct g as [|b g]; [congruence|]. cbn [app]. do 3 f_equal. rewrite zlen_cons, zlen_cons, zlen_app.
    pose proof (zlen_nonneg (wire l)). lia. }
  subst es. rewrite Es in R. destruct (runs_account _ _ _ _ _ _ _ _ _ R Fx) as (_ & Ac & _).
  assert (Epd : pd = 8 * zlen (wire l)).
  { cbn [skipped_sum fold_right pe_skipped] in Ac. rewrite zlen_app in Ac. change (zlen (@nil Z)) with 0 in Ac. lia. }
  subst pd. change (g ++ wire l) with ([] ++ (g ++ wire l)) in R. rewrite <- B in R at 1.
  rewrite (sparse_runs _ _ _ _ _ _ _ _ _ ltac:(rewrite B; constructor) Fx R). eexists. split; reflexivity.
Qed.

(** ** Computed witnesses *)
Definition create_bytes : list Z := [17; 64].
Definition create_rest : list Z := [0; 0; 0; 0; 0; 0; 0; 1; 0; 0; 0; 1].
Lemma feeds2 lib p a b p1 r1 p2 r2 : sparse lib p a = (p1, Ok r1) -> sparse lib p1 b = (p2, Ok r2) ->
  feeds lib p [a; b] p2 (pr_msgs r1 ++ pr_msgs r2) (pr_errors r1 ++ pr_errors r2).
Proof.
  intros A B. rewrite <- (app_nil_r (pr_msgs r2)), <- (app_nil_r (pr_errors r2)).
  apply (feeds_cons lib p a p1 r1 [b] p2 _ _ A). apply (feeds_cons lib p1 b p2 r2 [] p2 _ _ B). constructor.
Qed.
Ltac computed E := vm_compute in E; injection E as <- <-.
Lemma chunk_witness : exists p' es q r,
  feeds false (new_parser false) [frame 1 1 create_bytes; create_rest] p' [] es
  /\ sparse false (new_parser false) (frame 1 1 create_bytes ++ create_rest) = (q, Ok r) /\ length (pr_msgs r) = 1%nat.
Proof.
  destruct (sparse false (new_parser false) (frame 1 1 create_bytes)) as [p1 r1] eqn:E1.
  pose proof E1 as E1'. computed E1'.
  destruct (sparse false (mkSP [] false 0 1 0) create_rest) as [p2 r2] eqn:E2. pose proof E2 as E2'. computed E2'.
  destruct (sparse false (new_parser false) (frame 1 1 create_bytes ++ create_rest)) as [p3 r3] eqn:E3. pose proof E3 as E3'. computed E3'.
  eexists _, _, _, _. refine (conj (feeds2 _ _ _ _ _ _ _ _ E1 E2) (conj eq_refl eq_refl)).
Qed.
(** an ALP frame that runs over its declared length eats the frame behind it *)
Lemma overrun_witness lib : exists q r,
  sparse lib (new_parser false) (frame 1 1 create_bytes ++ frame 2 1 [52; 9; 1; 64; 0; 4]) = (q, Ok r)
  /\ length (pr_msgs r) = 1%nat /\ pr_parsed r = 8 * (7 + 2 + 12).
Proof.
  destruct (sparse lib (new_parser false) (frame 1 1 create_bytes ++ frame 2 1 [52; 9; 1; 64; 0; 4])) as [q r] eqn:E.
  destruct lib; computed E; eexists _, _; repeat split.
Qed.
(** the loss counter depends on the chunking *)
Lemma counter_witness lib : exists p1 q1 r1 q2 r2,
  feeds lib (new_parser false) [frame 1 1 [1; 64]; [0; 4]] q1 r1 []
  /\ sparse lib (new_parser false) (frame 1 1 [1; 64]) = (p1, Ok (mkPR [] 0 72 []))
  /\ sparse lib (new_parser false) (frame 1 1 [1; 64] ++ [0; 4]) = (q2, Ok r2)
  /\ r1 = pr_msgs r2 /\ length r1 = 1%nat /\ sp_buf q1 = sp_buf q2
  /\ sp_errs q1 = 1 /\ sp_errs q2 = 0.
Proof.
  destruct (sparse lib (new_parser false) (frame 1 1 [1; 64])) as [p1 r1] eqn:E1.
  pose proof E1 as E1'. assert (X : (p1, r1) = (mkSP (frame 1 1 [1; 64]) false 0 1 0, Ok (mkPR [] 0 72 []))).
  { rewrite <- E1. destruct lib; vm_compute; reflexivity. }
  injection X as -> ->.
  destruct (sparse lib (mkSP (frame 1 1 [1; 64]) false 0 1 0) [0; 4]) as [p2 r2] eqn:E2.
  destruct (sparse lib (new_parser false) (frame 1 1 [1; 64] ++ [0; 4])) as [p3 r3] eqn:E3.
  pose proof E2 as E2'. pose proof E3 as E3'.
  destruct lib; computed E2'; computed E3'; eexists _, _, _, _, _;
    (split; [exact (feeds2 _ _ _ _ _ _ _ _ E1 E2) | repeat split]).
Qed.

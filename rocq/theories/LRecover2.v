(** Frames that were hit or cut, before frames. *)
From Coq Require Import ZifyBool ZifyNat.
From Verif Require Export LRecover LCrc.

Lemma app_eq_len {A} (a b x y : list A) : a ++ x = b ++ y -> length a = length b -> a = b /\ x = y.
Proof.
  revert b. induction a as [|u a IH]; intros [|v b] E L; try discriminate; [auto|].
  cbn [app] in E. injection E as -> E. injection L as L. destruct (IH b E L) as [-> ->]. auto.
Qed.
Lemma lone_sync c t b h l w after rest : w ++ after = b ++ rest -> calculate_crc b <> (h, l) ->
  no_c0 (0 :: c :: t :: zlen b :: h :: l :: w) ->
  harmless (192 :: 0 :: c :: t :: zlen b :: h :: l :: w) after
  /\ settled (192 :: 0 :: c :: t :: zlen b :: h :: l :: w) after.
Proof.
  intros E X N.
  assert (K : forall pre d', 192 :: 0 :: c :: t :: zlen b :: h :: l :: w = pre ++ d' -> d' <> [] ->
    d' = 192 :: 0 :: c :: t :: zlen b :: h :: l :: w \/ exists y r, d' = y :: r /\ y <> 192).
  { intros [|q pre] d' Ed Nd; [left; symmetry; exact Ed|]. right. cbn [app] in Ed. injection Ed as _ Ed.
    rewrite Ed in N. apply Forall_app in N. destruct N as [_ N]. destruct d' as [|y r]; [congruence|].
    exists y, r. split; [reflexivity|]. inversion N; assumption. }
  split; intros pre d' Ed Nd H; destruct (K pre d' Ed Nd) as [-> | (y & r & -> & Ny)].
  - destruct H as (c' & t' & p & r & Bc & Bt & P & Ef). unfold frame in Ef.
    destruct (calculate_crc p) as [h' l'] eqn:Ep. cbn [app] in Ef. injection Ef as <- <- El <- <- Ef.
    rewrite E in Ef. destruct (app_eq_len _ _ _ _ Ef ltac:(unfold zlen in El; lia)) as [-> _]. congruence.
  - destruct H as (c' & t' & p & q & Bc & Bt & P & Ef). unfold frame in Ef. destruct (calculate_crc p). injection Ef as -> _. congruence.
  - cbn [app] in H. inversion H as [|r L|c' t' len h' l' body L]; subst; cbn [length] in *; try lia.
    rewrite E, zlen_app in L. pose proof (zlen_nonneg rest). lia.
  - cbn [app] in H. inversion H; subst; congruence.
Qed.

(** a frame that was hit by an error the CRC detects *)
Lemma after_hit lib chunks q c t p w h l traffic :
  Forall (sent_ok (sp_skip q)) traffic -> is_byte c -> is_byte t -> is_payload p ->
  Forall is_byte (w ++ [h; l]) -> length w = length p -> w ++ [h; l] <> protected p ->
  (burst 16 (diff (bytes_bits (protected p)) (bytes_bits (w ++ [h; l])))
   \/ Nat.odd (weight (diff (bytes_bits (protected p)) (bytes_bits (w ++ [h; l])))) = true
   \/ weight (diff (bytes_bits (protected p)) (bytes_bits (w ++ [h; l]))) = 2%nat) ->
  no_c0 ([c; t; zlen w; h; l] ++ w) ->
  sp_buf q ++ concat chunks = ([192; 0; c; t; zlen w; h; l] ++ w) ++ wire traffic -> chunks <> [] ->
  exists q' es, feeds lib q chunks q' (delivered traffic) es /\ sp_buf q' = []
    /\ Forall (fun e => pe_exn e = ParseError) es.
Proof.
  intros F Bc Bt [Fp Lp] Fw Lw N D C E Hn.
  assert (X : calculate_crc w <> (h, l)).
  { intros Ec. apply (crc_detects p (w ++ [h; l]) Fp Fw).
    - unfold protected. destruct (calculate_crc p). rewrite !app_length, Lw. reflexivity.
    - exact N.
    - destruct D as [D|[D|D]]; [left; exact D | right; left; exact D | right; right; split; [exact D|]].
      rewrite zlen_app. unfold zlen in *. cbn [length]. lia.
    - exists w. unfold protected. rewrite Ec. reflexivity. }
  destruct (lone_sync c t w h l w (wire traffic) (wire traffic) eq_refl X) as [H S].
  { constructor; [discriminate | exact C]. }
  apply (recover_all lib chunks q ([192; 0; c; t; zlen w; h; l] ++ w) traffic F); try assumption.
  apply Forall_app in Fw. destruct Fw as [Fw Fhl]. pose proof (zlen_nonneg w).
  inversion Fhl as [|? ? Bh F1]; subst. inversion F1 as [|? ? Bl F2]; subst.
  cbn [app]. repeat apply Forall_cons; try assumption; unfold is_byte; unfold zlen in *; lia.
Qed.

(** a frame whose end was lost *)
Lemma diff_app a : forall b x y, length a = length b -> diff (a ++ x) (b ++ y) = diff a b ++ diff x y.
Proof.
  induction a as [|u a IH]; intros [|v b] x y L; try discriminate; [reflexivity|].
  cbn [app diff]. rewrite IH by (injection L; auto). reflexivity.
Qed.
Lemma diff_same a : diff a a = repeat false (length a).
Proof. induction a as [|u a IH]; [reflexivity|]. cbn [diff length repeat]. rewrite IH. destruct u; reflexivity. Qed.
Lemma diff_length a : forall b, length a = length b -> length (diff a b) = length a.
Proof. induction a as [|u a IH]; intros [|v b] L; try discriminate; [reflexivity|]. cbn [diff length]. rewrite IH; auto. Qed.
Lemma tail_burst a m m' e : length m = length m' -> (length m <= 2)%nat ->
  burst 16 (diff (bytes_bits (a ++ m ++ e)) (bytes_bits (a ++ m' ++ e))).
Proof.
  intros L L2. rewrite !bytes_bits_app. rewrite diff_app by reflexivity.
  rewrite diff_app by (rewrite !bytes_bits_length, L; reflexivity). rewrite !diff_same.
  eexists _, (diff (bytes_bits m) (bytes_bits m')), _. split; [reflexivity|].
  rewrite diff_length by (rewrite !bytes_bits_length, L; reflexivity). rewrite bytes_bits_length. lia.
Qed.
Lemma wire_two x l : exists r, wire (x :: l) = 192 :: 0 :: r.
Proof. cbn [wire flat_map]. unfold sent_frame, frame. destruct (calculate_crc (s_payload x)). eexists. reflexivity. Qed.
Lemma after_cut lib chunks q c t p d m traffic :
  Forall (sent_ok (sp_skip q)) traffic -> traffic <> [] -> is_byte c -> is_byte t -> is_payload p ->
  frame c t p = d ++ m -> (length m <= length p)%nat ->
  ((exists b, m = [b] /\ b <> 192) \/ (exists b1 b2, m = [b1; b2] /\ ~ (b1 = 192 /\ b2 = 0))) ->
  no_c0 (tl d) ->
  sp_buf q ++ concat chunks = d ++ wire traffic -> chunks <> [] ->
  exists q' es, feeds lib q chunks q' (delivered traffic) es /\ sp_buf q' = []
    /\ Forall (fun e => pe_exn e = ParseError) es.
Proof.
  intros F Nt Bc Bt P Ef Lm Hm C E Hn. pose proof (calc_bytes p) as [Bh Bl].
  assert (Fd : Forall is_byte d).
  { pose proof (frame_bytes c t p Bc Bt P) as Ff. rewrite Ef in Ff. apply Forall_app in Ff. tauto. }
  pose proof (eq_refl : protected p = protected p) as Pp. unfold protected in Pp at 2.
  unfold frame in Ef. destruct (calculate_crc p) as [h l] eqn:Ec. cbn [fst snd] in *.
  set (a := firstn (length p - length m) p).
  assert (Ea : p = a ++ m).
  { pose proof (firstn_skipn (length p - length m) p) as K. fold a in K. rewrite <- K in Ef at 2.
    rewrite app_assoc in Ef. apply app_eq_len in Ef.
    - destruct Ef as [_ <-]. symmetry. exact K.
    - apply (f_equal (@length Z)) in Ef. rewrite !app_length, skipn_length in Ef. rewrite app_length. lia. }
  rewrite Ea in Ef. rewrite app_assoc in Ef. apply app_inv_tail in Ef. rewrite <- Ea in Ef.
  destruct traffic as [|x tr]; [congruence|]. destruct (wire_two x tr) as (r & Ew).
  assert (Hm' : exists m' rest, wire (x :: tr) = m' ++ rest /\ length m' = length m /\ m' <> m /\ Forall is_byte m' /\ (length m <= 2)%nat).
  { destruct Hm as [(b & -> & Nb) | (b1 & b2 & -> & Nb)].
    - exists [192], (0 :: r). refine (conj Ew (conj eq_refl (conj _ (conj _ _)))); [congruence | | cbn; lia].
      repeat apply Forall_cons; try apply Forall_nil; unfold is_byte; lia.
    - exists [192; 0], r. refine (conj Ew (conj eq_refl (conj _ (conj _ _)))); [intros K; injection K as <- <-; tauto | | cbn; lia].
      repeat apply Forall_cons; try apply Forall_nil; unfold is_byte; lia. }
  destruct Hm' as (m' & rest & Ew' & Lm' & Nm & Fm & L2).
  assert (Fp : Forall is_byte p) by apply P.
  assert (Fa : Forall is_byte a) by (rewrite Ea in Fp; apply Forall_app in Fp; tauto).
  assert (X : calculate_crc (a ++ m') <> (h, l)).
  { intros Ex. apply (crc_detects p (protected (a ++ m'))); [exact Fp | | | | | exists (a ++ m'); reflexivity].
    - unfold protected. rewrite Ex. apply Forall_app. split; [apply Forall_app; auto|]. repeat apply Forall_cons; auto.
    - unfold protected. rewrite Ex, Ec. rewrite Ea at 1. rewrite !app_length. lia.
    - unfold protected. rewrite Ex, Ec. rewrite Ea at 1. intros K. apply app_inv_tail in K. apply app_inv_head in K. congruence.
    - left. unfold protected. rewrite Ex, Ec. rewrite Ea at 1. rewrite <- !app_assoc. apply tail_burst; [symmetry; exact Lm' | exact L2]. }
  assert (Lz : zlen (a ++ m') = zlen p) by (rewrite Ea; unfold zlen; rewrite !app_length; lia).
  assert (Ed : d = 192 :: 0 :: c :: t :: zlen (a ++ m') :: h :: l :: a) by (rewrite Lz, <- Ef; reflexivity).
  destruct (lone_sync c t (a ++ m') h l a (wire (x :: tr)) rest) as [H S].
  { rewrite Ew'. apply app_assoc. }
  { exact X. }
  { rewrite Ed in C. exact C. }
  rewrite <- Ed in H, S. exact (recover_all lib chunks q d (x :: tr) F Fd H S E Hn).
Qed.

(** the lost byte was C0: the sync byte of the next frame takes its place *)
Lemma swallowed lib p y x l q : Forall (sent_ok (sp_skip p)) (y :: x :: l) -> sp_buf p = [] ->
  sent_frame y = q ++ [192] -> no_c0 (tl (sent_frame x)) ->
  exists p' es, feeds lib p [q ++ wire (x :: l)] p' (delivered (y :: l)) es /\ sp_buf p' = [].
Proof.
  intros F B Ey N. inversion F as [|? ? Hy F1]; subst. inversion F1 as [|? ? Hx Fl]; subst.
  destruct (sent_frame_head x) as (g & Ex). rewrite Ex in N. cbn [tl] in N.
  assert (Eb : q ++ wire (x :: l) = sent_frame y ++ g ++ wire l).
  { cbn [wire flat_map]. rewrite Ex, Ey. cbn [app]. rewrite <- app_assoc. reflexivity. }
  assert (Fg : Forall is_byte g).
  { pose proof (sent_frame_bytes _ _ Hx) as K. rewrite Ex in K. inversion K; assumption. }
  destruct (runs_garbage lib (sp_skip p) l g Fl N Fg (g ++ wire l) [] (app_nil_r _))
    as (g' & l1 & l2 & es & pd & fin & -> & _ & _ & _ & R & _ & Z).
  destruct (Z eq_refl) as [-> ->]. rewrite app_nil_r in *.
  assert (Fr : Forall is_byte (g ++ wire l1)) by (apply Forall_app; split; [exact Fg | eapply wire_bytes; exact Fl]).
  pose proof (runs_sent lib (sp_skip p) y (g ++ wire l1) _ _ _ _ _ _ Hy Fr R) as R2. rewrite <- Eb in R2.
  assert (Fb : Forall is_byte (q ++ wire (x :: l1))).
  { rewrite Eb. apply Forall_app. split; [eapply sent_frame_bytes; exact Hy | exact Fr]. }
  pose proof (sparse_runs lib p (q ++ wire (x :: l1)) _ _ _ _ _ _ ltac:(rewrite B; constructor) Fb ltac:(rewrite B; exact R2)) as S.
  cbv iota in S. pose proof (feeds_cons lib p _ _ _ [] _ _ _ S (feeds_nil lib _)) as K.
  cbn [pr_msgs pr_errors] in K. rewrite !app_nil_r in K. eexists _, _. split; [exact K | reflexivity].
Qed.
(** a frame that lost its last byte, before another frame *)
Lemma cut_case : harmless [192; 0; 7; 1; 3; 173; 173; 1; 2] (wire [mkSent 8 1 [9] (MRaw [9])])
  /\ settled [192; 0; 7; 1; 3; 173; 173; 1; 2] (wire [mkSent 8 1 [9] (MRaw [9])]).
Proof.
  refine (lone_sync 7 1 [1; 2; 192] 173 173 [1; 2] _ (tl (wire [mkSent 8 1 [9] (MRaw [9])])) _ _ _).
  - vm_compute. reflexivity.
  - vm_compute. discriminate.
  - repeat constructor; discriminate.
Qed.

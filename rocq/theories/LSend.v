(** Sender and receiver together. *)
From Coq Require Import ZifyBool ZifyNat.
From Verif Require Export LLink.
Ltac Zify.zify_post_hook ::= Z.div_mod_to_equations.

(** ** build_serial_frame *)
Definition with_up (p : SParser) (u : Z) : SParser := mkSP (sp_buf p) (sp_skip p) u (sp_down p) (sp_errs p).
Lemma build_ok p a : is_byte (sp_up p) -> zlen a <= 255 ->
  build_serial_frame p (Ok a) = (with_up p (counter_after (sp_up p)), Ok (frame (sp_up p) 1 a)).
Proof.
  intros B L. pose proof (zlen_nonneg a). unfold build_serial_frame, frame, is_byte in *. cbn [rbind].
  rewrite !yield1_ok by lia. cbn [rbind]. destruct (calculate_crc a) as [h l]. cbn [app].
  unfold with_up, counter_after. do 2 f_equal.
  destruct (255 <? sp_up p + 1) eqn:E; lia.
Qed.
Lemma build_long p a : is_byte (sp_up p) -> 255 < zlen a -> build_serial_frame p (Ok a) = (p, Err ValueError).
Proof.
  intros B L. unfold build_serial_frame, is_byte in *. cbn [rbind].
  rewrite !yield1_ok by lia. cbn [rbind]. rewrite yield1_err by lia. reflexivity.
Qed.
Lemma build_err p e : build_serial_frame p (Err e) = (p, Err e).
Proof. reflexivity. Qed.
Lemma build_spec p ser : is_byte (sp_up p) ->
  match ser with
  | Err e => build_serial_frame p ser = (p, Err e)
  | Ok a => if zlen a <=? 255
            then exists p', build_serial_frame p ser = (p', Ok (frame (sp_up p) 1 a))
                  /\ sp_up p' = (sp_up p + 1) mod 256 /\ sp_buf p' = sp_buf p /\ sp_skip p' = sp_skip p
                  /\ sp_down p' = sp_down p /\ sp_errs p' = sp_errs p
            else build_serial_frame p ser = (p, Err ValueError)
  end.
Proof.
  intros B. destruct ser as [a|e]; [|reflexivity]. destruct (zlen a <=? 255) eqn:L.
  - rewrite build_ok by (assumption || lia). eexists. split; [reflexivity|]. repeat split.
  - apply build_long; [exact B | lia].
Qed.

Fixpoint count_up (c : Z) (n : nat) : list Z :=
  match n with O => [] | S n => c :: count_up (counter_after c) n end.
Lemma after_byte c : is_byte c -> is_byte (counter_after c).
Proof. unfold is_byte, counter_after. lia. Qed.
Lemma count_bytes n : forall c, is_byte c -> Forall is_byte (count_up c n).
Proof. induction n as [|n IH]; intros c B; constructor; [exact B | apply IH, after_byte, B]. Qed.

Lemma sends_wire skip p sers fs p' : sends p sers fs p' -> forall msgs, is_byte (sp_up p) ->
  Forall2 (transmits skip) sers msgs ->
  exists l, Forall (sent_ok skip) l /\ wire l = concat fs /\ delivered l = map (fun m => (1, m)) msgs
    /\ map s_counter l = count_up (sp_up p) (length sers)
    /\ sp_up p' = (sp_up p + zlen sers) mod 256.
Proof.
  induction 1 as [p|p a p1 f sers fs p2 Hb Hs IH]; intros msgs B T.
  - inversion T; subst. exists []. cbn [length count_up]. unfold is_byte in B. change (zlen (@nil (res (list Z)))) with 0.
    refine (conj (Forall_nil _) (conj eq_refl (conj eq_refl (conj eq_refl _)))). lia.
  - inversion T as [|? m ? ms Ta Tr]; subst. destruct Ta as (bs & -> & P & C).
    rewrite build_ok in Hb by (assumption || apply P). injection Hb as <- <-.
    specialize (IH ms (after_byte _ B) Tr). destruct IH as (l & F & W & D & Cn & U).
    exists (mkSent (sp_up p) 1 bs m :: l). refine (conj _ (conj _ (conj _ (conj _ _)))).
    + constructor; [|exact F]. unfold sent_ok. cbn [s_counter s_type s_payload s_msg].
      refine (conj B (conj _ (conj P C))). unfold is_byte. lia.
    + cbn [wire flat_map concat]. f_equal. exact W.
    + cbn [delivered map s_type s_msg]. f_equal. exact D.
    + cbn [map s_counter length count_up]. f_equal. exact Cn.
    + rewrite U. rewrite zlen_cons. cbn [with_up sp_up]. unfold counter_after. lia.
Qed.
Lemma sends_exists skip sers msgs : Forall2 (transmits skip) sers msgs -> forall p, is_byte (sp_up p) ->
  exists fs p', sends p sers fs p'.
Proof.
  induction 1 as [|a m sers msgs T Tr IH]; intros p B.
  - exists [], p. constructor.
  - destruct T as (bs & -> & P & C). destruct (IH (with_up p (counter_after (sp_up p))) (after_byte _ B)) as (fs & p' & H).
    exists (frame (sp_up p) 1 bs :: fs), p'. econstructor; [apply build_ok; [exact B | apply P] | exact H].
Qed.

(** ** Counters *)
Lemma bump_counters p c : is_byte (sp_down p) -> 
  sp_down (bump p c) = c /\ sp_errs (bump p c) = sp_errs p + (if c =? counter_after (sp_down p) then 0 else 1).
Proof.
  unfold is_byte, bump, counter_after. intros B.
  assert (E : (if 255 <? sp_down p + 1 then 0 else sp_down p + 1) = (sp_down p + 1) mod 256).
  { destruct (255 <? sp_down p + 1) eqn:L; lia. }
  rewrite E. destruct (Z.eqb_spec c ((sp_down p + 1) mod 256)) as [->|N]; cbn [negb sp_down sp_errs]; split; lia.
Qed.
Lemma counters_errs cs : forall p, is_byte (sp_down p) -> Forall is_byte cs ->
  sp_down (with_counters p cs) = last cs (sp_down p) /\ sp_errs (with_counters p cs) = sp_errs p + jumps (sp_down p) cs.
Proof.
  induction cs as [|c cs IH]; intros p B F; cbn [with_counters fold_left jumps last].
  - split; [reflexivity | lia].
  - inversion F as [|? ? Bc Fc]; subst. destruct (bump_counters p c B) as [D E].
    destruct (IH (bump p c)) as [D1 E1]; [rewrite D; exact Bc | exact Fc |].
    unfold with_counters in *. rewrite D1, E1, D, E. split; [|lia].
    destruct cs as [|c2 cs]; [reflexivity|]. clear. revert c c2 . induction cs as [|x cs IH]; intros c c2; [reflexivity|].
    cbn [last] in *. apply (IH c x).
Qed.
Lemma jumps_count n : forall c, jumps c (count_up (counter_after c) n) = 0.
Proof.
  induction n as [|n IH]; intros c; cbn [count_up jumps]; [reflexivity|]. rewrite Z.eqb_refl, IH. reflexivity.
Qed.
Lemma last_count n : forall c d, is_byte c -> (0 < n)%nat -> last (count_up c n) d = (c + Z.of_nat n - 1) mod 256.
Proof.
  induction n as [|n IH]; intros c d B L; [lia|]. cbn [count_up last].
  destruct n as [|n].
  - cbn [count_up]. unfold is_byte in B. lia.
  - change (match count_up (counter_after c) (S n) with [] => c | _ :: _ => last (count_up (counter_after c) (S n)) d end)
      with (last (count_up (counter_after c) (S n)) d).
    rewrite (IH _ d (after_byte _ B)) by lia. unfold counter_after. lia.
Qed.

(** ** The link *)
Lemma link lib skip s sers fs s' q msgs chunks : sends s sers fs s' -> Forall2 (transmits skip) sers msgs ->
  is_byte (sp_up s) -> sp_skip q = skip -> sp_buf q = [] -> concat chunks = concat fs -> chunks <> [] ->
  feeds lib q chunks (set_buf (with_counters q (count_up (sp_up s) (length sers))) []) (map (fun m => (1, m)) msgs) [].
Proof.
  intros Hs T B S Bq E N. destruct (sends_wire _ _ _ _ _ Hs msgs B T) as (l & F & W & D & Cn & _).
  destruct (feeds_garbage lib chunks q [] l) as (es & H & _ & Z); try assumption.
  - rewrite S. exact F.
  - constructor.
  - constructor.
  - rewrite Bq, E, W. reflexivity.
  - rewrite (Z eq_refl), D, Cn in H. exact H.
Qed.
Lemma link_in_step lib skip s sers fs s' q msgs chunks : sends s sers fs s' -> Forall2 (transmits skip) sers msgs ->
  is_byte (sp_up s) -> sp_skip q = skip -> sp_buf q = [] -> concat chunks = concat fs -> chunks <> [] ->
  is_byte (sp_down q) -> in_step s q ->
  exists q', feeds lib q chunks q' (map (fun m => (1, m)) msgs) [] /\ sp_buf q' = []
    /\ sp_errs q' = sp_errs q /\ in_step s' q'.
Proof.
  intros Hs T B S Bq E N Bd I. eexists. split; [eapply link; eassumption|].
  destruct (sends_wire _ _ _ _ _ Hs msgs B T) as (_ & _ & _ & _ & _ & U).
  destruct (counters_errs (count_up (sp_up s) (length sers)) q Bd (count_bytes _ _ B)) as [D Er].
  unfold in_step in *. cbn [set_buf sp_buf sp_errs sp_down]. rewrite D, Er, U. refine (conj eq_refl (conj _ _)).
  - rewrite <- I, jumps_count. lia.
  - destruct (length sers) as [|n] eqn:L.
    + cbn [count_up last]. rewrite I. unfold zlen. rewrite L. unfold is_byte in B. lia.
    + rewrite last_count by (assumption || lia). unfold counter_after, zlen. rewrite L. lia.
Qed.
Lemma link_loss lib skip s lost lfs s1 sers fs s' q lmsgs msgs chunks :
  sends s lost lfs s1 -> Forall2 (transmits skip) lost lmsgs ->
  sends s1 sers fs s' -> Forall2 (transmits skip) sers msgs -> sers <> [] ->
  is_byte (sp_up s) -> sp_skip q = skip -> sp_buf q = [] -> concat chunks = concat fs -> chunks <> [] ->
  is_byte (sp_down q) -> in_step s q ->
  exists q', feeds lib q chunks q' (map (fun m => (1, m)) msgs) [] /\ sp_buf q' = []
    /\ sp_errs q' = sp_errs q + (if zlen lost mod 256 =? 0 then 0 else 1) /\ in_step s' q'.
Proof.
  intros Hl Tl Hs T Ns B S Bq E N Bd I.
  destruct (sends_wire _ _ _ _ _ Hl lmsgs B Tl) as (_ & _ & _ & _ & _ & U1).
  assert (B1 : is_byte (sp_up s1)) by (rewrite U1; unfold is_byte; lia).
  eexists. split; [eapply link; eassumption|].
  destruct (sends_wire _ _ _ _ _ Hs msgs B1 T) as (_ & _ & _ & _ & _ & U).
  destruct (counters_errs (count_up (sp_up s1) (length sers)) q Bd (count_bytes _ _ B1)) as [D Er].
  unfold in_step in *. cbn [set_buf sp_buf sp_errs sp_down]. rewrite D, Er, U. refine (conj eq_refl (conj _ _)).
  - destruct sers as [|a sers]; [congruence|]. cbn [length count_up jumps]. rewrite jumps_count.
    rewrite I, U1. unfold is_byte in B. pose proof (zlen_nonneg lost).
    destruct (Z.eqb_spec ((sp_up s + zlen lost) mod 256) (sp_up s)); destruct (Z.eqb_spec (zlen lost mod 256) 0); lia.
  - destruct (length sers) as [|n] eqn:L; [destruct sers; [congruence | discriminate]|].
    rewrite last_count by (assumption || lia). unfold counter_after, zlen. rewrite L. lia.
Qed.
Lemma link_fresh lib skip sers fs s' msgs chunks : sends (new_parser skip) sers fs s' -> Forall2 (transmits skip) sers msgs ->
  concat chunks = concat fs -> chunks <> [] -> sers <> [] ->
  exists q', feeds lib (new_parser skip) chunks q' (map (fun m => (1, m)) msgs) [] /\ sp_buf q' = []
    /\ sp_errs q' = 1 /\ in_step s' q'.
Proof.
  intros Hs T E N Ns. assert (B : is_byte (sp_up (new_parser skip))) by (unfold is_byte; cbn; lia).
  eexists. split; [eapply link; eauto|].
  destruct (sends_wire _ _ _ _ _ Hs msgs B T) as (_ & _ & _ & _ & _ & U).
  destruct (counters_errs (count_up (sp_up (new_parser skip)) (length sers)) (new_parser skip)
             ltac:(unfold is_byte; cbn; lia) (count_bytes _ _ B)) as [D Er].
  unfold in_step in *. cbn [set_buf sp_buf sp_errs sp_down]. rewrite D, Er, U. refine (conj eq_refl (conj _ _)).
  - destruct sers as [|a sers]; [congruence|]. cbn [length count_up jumps]. rewrite jumps_count. reflexivity.
  - destruct (length sers) as [|n] eqn:L; [destruct sers; [congruence | discriminate]|].
    rewrite last_count by (assumption || lia). unfold counter_after, zlen. rewrite L. cbn [new_parser sp_up]. lia.
Qed.

(** ** What is transmitted *)
Lemma transmits_raw a : is_payload a -> transmits true (Ok a) (MRaw a).
Proof. intros P. exists a. refine (conj eq_refl (conj P _)). intros rest _. constructor; auto; lia. Qed.
Lemma transmits_command c : command_wf c -> command_bytes c <= 255 ->
  transmits false (command_ser c) (MCmd (command_received c)).
Proof.
  intros W L. destruct (command_emits c W) as (bs & E & F & B). exists bs.
  assert (Lb : zlen (command_layout c) = 8 * zlen bs) by (rewrite <- B; unfold zlen; rewrite bytes_bits_length; lia).
  unfold command_bytes in L.
  refine (conj E (conj _ _)); [split; [exact F | lia]|]. intros rest Fr. constructor; auto; try lia.
  pose proof (command_accepts c W 56%nat (bytes_bits rest) eq_refl) as A. unfold command_bytes in A.
  rewrite Lb in A. replace (8 * zlen bs / 8) with (zlen bs) in A by lia.
  rewrite bytes_bits_app, B, A, skipn_app_exact by reflexivity. do 3 f_equal. unfold zlen in Lb. lia.
Qed.
Lemma sent_logging skip c payload : is_byte c -> is_payload payload -> sent_ok skip (mkSent c 4 payload (MRaw payload)).
Proof.
  intros B P. unfold sent_ok. cbn [s_counter s_type s_payload s_msg]. refine (conj B (conj _ (conj P _))).
  - unfold is_byte. lia.
  - intros. constructor.
Qed.
Lemma sent_rebooted skip c b : is_byte c -> is_byte b -> sent_ok skip (mkSent c 5 [b] (MInt b)).
Proof.
  intros B P. unfold sent_ok. cbn [s_counter s_type s_payload s_msg]. refine (conj B (conj _ (conj _ _))).
  - unfold is_byte. lia.
  - split; [constructor; auto | unfold zlen; cbn [length]; lia].
  - intros. econstructor. reflexivity.
Qed.
Lemma sent_raw c t payload : is_byte c -> is_byte t -> is_payload payload -> t <> 5 ->
  sent_ok true (mkSent c t payload (MRaw payload)).
Proof.
  intros B Bt P N. unfold sent_ok. cbn [s_counter s_type s_payload s_msg]. refine (conj B (conj Bt (conj P _))).
  intros. destruct (Z.eq_dec t 4) as [->|]; constructor; auto.
Qed.
(** the type and counter bytes can be anything *)
Lemma sent_type skip a m c t : transmits skip a m -> is_byte c -> is_byte t -> t <> 4 -> t <> 5 ->
  exists bs, a = Ok bs /\ sent_ok skip (mkSent c t bs m).
Proof.
  intros (bs & -> & P & C) B Bt N4 N5. exists bs. split; [reflexivity|].
  unfold sent_ok. cbn [s_counter s_type s_payload s_msg]. refine (conj B (conj Bt (conj P _))).
  intros rest F. specialize (C rest F). inversion C; subst; try congruence; constructor; auto.
Qed.

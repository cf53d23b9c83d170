(** Lemmas for C92: altered frames that are delivered *)
From Coq Require Import ZifyBool ZifyNat Lia.
From Verif Require Import SForge SUndetected LUndetected LSend LSerialProps LForge.
Open Scope list_scope.
Open Scope Z_scope.

Lemma header_split c t p : frame c t p = header (frame c t p) ++ p.
Proof. unfold header, frame. destruct (calculate_crc p). reflexivity. Qed.
Lemma payload_len p w : is_payload p -> Forall is_byte w -> length w = length p -> is_payload w.
Proof. intros [F L] Fw E. unfold is_payload, zlen in *. rewrite E. auto. Qed.
Lemma raw_delivered lib q c t p w : sp_skip q = true -> sp_buf q = [] -> is_byte c -> is_byte t -> t <> 5 -> is_payload p ->
  Forall is_byte w -> length w = length p -> calculate_crc w = calculate_crc p ->
  exists q' r, sparse lib q (header (frame c t p) ++ w) = (q', Ok r) /\ pr_msgs r = [(t, MRaw w)] /\ pr_errors r = [] /\ sp_buf q' = [].
Proof.
  intros S B Bc Bt N P Fw L C. apply (accepted_header c t p w L) in C. rewrite <- C, <- header_split.
  apply (receive_one lib q (mkSent c t w (MRaw w))); [|exact B]. rewrite S. apply sent_raw; try assumption.
  exact (payload_len p w P Fw L).
Qed.
Lemma content_altered lib q c id content w : sp_skip q = false -> sp_buf q = [] -> is_byte c -> is_byte id ->
  Forall is_byte content -> Forall is_byte w -> length content = (2 + length w)%nat -> zlen content <= 250 ->
  let head := header (frame c 1 (content_head id content ++ content)) ++ content_head id content in
  exists x y, is_byte x /\ is_byte y
  /\ (exists q' r, sparse lib q (head ++ w ++ [x; y]) = (q', Ok r)
       /\ pr_msgs r = [(1, MCmd (command_received (file_content id (w ++ [x; y]))))] /\ pr_errors r = [] /\ sp_buf q' = [])
  /\ (forall x' y', is_byte x' -> is_byte y' -> head ++ w ++ [x'; y'] = frame c 1 (content_head id content ++ w ++ [x'; y']) -> x' = x /\ y' = y).
Proof.
  intros S B Bc Bi Fc Fw L Lc. cbv zeta.
  assert (N : content <> []) by (intros ->; discriminate L).
  destruct (content_sent id content Bi Fc N Lc) as (_ & P & _).
  assert (FH : Forall is_byte (content_head id content)) by (destruct P as [F _]; apply Forall_app in F; apply F).
  destruct (altered c 1 (content_head id content ++ content) (content_head id content ++ w) P) as (x & y & Bx & By & E & U).
  - apply Forall_app. split; assumption.
  - rewrite !app_length. lia.
  - rewrite <- app_assoc in E. exists x, y. refine (conj Bx (conj By (conj _ _))).
    + rewrite <- app_assoc, <- E.
      assert (Z1 : zlen (w ++ [x; y]) = zlen content) by (unfold zlen; rewrite app_length; cbn [length]; lia).
      assert (HH : content_head id content = content_head id (w ++ [x; y])) by (unfold content_head; rewrite Z1; reflexivity).
      rewrite HH.
      destruct (content_sent id (w ++ [x; y]) Bi) as (_ & _ & K).
      * apply Forall_app. split; [exact Fw | repeat apply Forall_cons; auto].
      * destruct w; discriminate.
      * lia.
      * pose proof (receive_one lib q (mkSent c 1 (content_head id (w ++ [x; y]) ++ w ++ [x; y]) (MCmd (command_received (file_content id (w ++ [x; y])))))) as R.
        rewrite S in R. exact (R (K c Bc) B).
    + intros x' y' Bx' By' H. apply U; [assumption..|]. rewrite <- !app_assoc in *. symmetry. exact H.
Qed.
Lemma share_crc h l n : is_byte h -> is_byte l ->
  how_many (has_crc h l) (2 + n) = 256 ^ Z.of_nat n /\ how_many (fun _ => true) (2 + n) = 65536 * how_many (has_crc h l) (2 + n).
Proof.
  intros Bh Bl. rewrite (count_crc h l n Bh Bl), (count_all (2 + n)). split; [reflexivity|].
  change (2 + n)%nat with (S (S n)). rewrite !Nat2Z.inj_succ, !Z.pow_succ_r by lia. ring.
Qed.
Lemma altered_case : calculate_crc [9; 9; 59; 198] = calculate_crc [1; 2; 3; 4] /\
  (exists q r, sparse true (new_parser true) (header (frame 7 1 [1; 2; 3; 4]) ++ [9; 9; 59; 198]) = (q, Ok r) /\ pr_msgs r = [(1, MRaw [9; 9; 59; 198])])
  /\ exists q r, sparse true (new_parser true) (header (frame 7 1 [1; 2; 3; 4]) ++ [9; 9; 59; 199]) = (q, Ok r) /\ pr_msgs r = [].
Proof. split; [vm_compute; reflexivity|]. split; eexists _, _; (split; [vm_compute; reflexivity | reflexivity]). Qed.

(** Shared list objects of PHY status files. *)
From Coq Require Import ZifyBool ZifyNat.
From Verif Require Export LFiles.
Ltac Zify.zify_post_hook ::= Z.div_mod_to_equations.

Lemma update_length {A} n (x : A) l : length (update n x l) = length l.
Proof. revert n. induction l; intros [|n]; cbn; auto. Qed.
Lemma nth_update_same {A} n (x d : A) l : (n < length l)%nat -> nth n (update n x l) d = x.
Proof. revert n. induction l; intros [|n] H; cbn in *; try lia; [reflexivity | apply IHl; lia]. Qed.
Lemma nth_update_other {A} n k (x d : A) l : n <> k -> nth k (update n x l) d = nth k l d.
Proof.
  revert n k. induction l; intros [|n] [|k] H; cbn; try reflexivity; try lia. apply IHl. lia.
Qed.
Definition extends {A} (l l' : list A) : Prop := exists r, l' = l ++ r.
Lemma extends_refl {A} (l : list A) : extends l l.
Proof. exists []. symmetry. apply app_nil_r. Qed.
Lemma extends_trans {A} (a b c : list A) : extends a b -> extends b c -> extends a c.
Proof. intros [x ->] [y ->]. exists (x ++ y). symmetry. apply app_assoc. Qed.
Lemma extends_py {A} (x : A) n l : extends l (py_extend x n l).
Proof. eexists. reflexivity. Qed.
Lemma nth_update_extends {A} n k (x : A) m (ls : list (list A)) :
  extends (nth k ls []) (nth k (update n (py_extend x m (nth n ls [])) ls) []).
Proof.
  destruct (Nat.eq_dec n k) as [->|N]; [|rewrite nth_update_other by exact N; apply extends_refl].
  destruct (Nat.lt_ge_cases k (length ls)) as [L|L].
  - rewrite nth_update_same by exact L. apply extends_py.
  - rewrite (nth_overflow ls) by exact L. eexists. reflexivity.
Qed.
Lemma step_extends h op k : extends (ids_at h k) (ids_at (phy_step h op) k) /\ extends (noise_at h k) (noise_at (phy_step h op) k).
Proof.
  unfold ids_at, noise_at. destruct op as [l|l|u r t d n i j]; cbn [phy_step h_ids h_noise].
  - split; [|apply extends_refl]. destruct (Nat.lt_ge_cases k (length (h_ids h))) as [L|L].
    + rewrite app_nth1 by exact L. apply extends_refl.
    + rewrite (nth_overflow (h_ids h)) by exact L. eexists. reflexivity.
  - split; [apply extends_refl|]. destruct (Nat.lt_ge_cases k (length (h_noise h))) as [L|L].
    + rewrite app_nth1 by exact L. apply extends_refl.
    + rewrite (nth_overflow (h_noise h)) by exact L. eexists. reflexivity.
  - unfold construct. cbn [fst h_ids h_noise]. split; apply nth_update_extends.
Qed.
Lemma run_extends ops : forall h k, extends (ids_at h k) (ids_at (phy_run h ops) k) /\ extends (noise_at h k) (noise_at (phy_run h ops) k).
Proof.
  induction ops as [|op ops IH]; intros h k; [split; apply extends_refl|].
  unfold phy_run in *. cbn [fold_left]. destruct (step_extends h op k) as [A B]. destruct (IH (phy_step h op) k) as [C D].
  split; eapply extends_trans; eassumption.
Qed.

(** ** Serialization uses only the first [len] entries *)
Lemma items_prefix n : forall ids noise a b, (n <= length ids)%nat -> (n <= length noise)%nat ->
  phy_status_items n (ids ++ a) (noise ++ b) = phy_status_items n ids noise.
Proof.
  induction n as [|n IH]; intros ids noise a b L1 L2; [destruct ids, noise; reflexivity|].
  destruct ids as [|c ids]; [cbn in L1; lia|]. destruct noise as [|x noise]; [cbn in L2; lia|].
  cbn [app phy_status_items]. rewrite IH; [reflexivity | cbn in L1; lia | cbn in L2; lia].
Qed.
Lemma zlen_py_extend {A} (x : A) n l : n <= zlen (py_extend x n l).
Proof. unfold py_extend, zlen. rewrite app_length, repeat_length. lia. Qed.
Lemma constructed h up rx tx duty n ri rn h' o : construct h up rx tx duty n ri rn = (h', Ok o) ->
  (ri < length (h_ids h))%nat -> (rn < length (h_noise h))%nat ->
  o = mkPhyObj up rx tx duty n ri rn
  /\ ids_at h' ri = py_extend csi_default n (ids_at h ri) /\ noise_at h' rn = py_extend 0 n (noise_at h rn).
Proof.
  unfold construct. intros [= <- E] L1 L2. destruct (mk_phy_status _ _ _ _ _ _ _); [|discriminate]. injection E as <-.
  unfold ids_at, noise_at. cbn [h_ids h_noise]. rewrite !nth_update_same by assumption. auto.
Qed.
Lemma object_stable h up rx tx duty n ri rn h' o ops : construct h up rx tx duty n ri rn = (h', Ok o) ->
  (ri < length (h_ids h))%nat -> (rn < length (h_noise h))%nat ->
  phy_status_ser (view (phy_run h' ops) o) = phy_status_ser (view h' o).
Proof.
  intros E L1 L2. apply constructed in E as (-> & E1 & E2); [|assumption|assumption].
  unfold phy_status_ser, view. cbn [ps_up ps_rx ps_tx ps_duty ps_len ps_ids ps_noise po_up po_rx po_tx po_duty po_len po_ids po_noise].
  destruct (run_extends ops h' ri) as [[a A] _]. destruct (run_extends ops h' rn) as [_ [b B]]. rewrite A, B, items_prefix; [reflexivity| |].
  - rewrite E1. pose proof (zlen_py_extend csi_default n (ids_at h ri)). unfold zlen in *. lia.
  - rewrite E2. pose proof (zlen_py_extend 0 n (noise_at h rn)). unfold zlen in *. lia.
Qed.

(** ** The default list after any history *)
Lemma run_snoc h ops op : phy_run h (ops ++ [op]) = phy_step (phy_run h ops) op.
Proof. unfold phy_run. rewrite fold_left_app. reflexivity. Qed.
Lemma high_snoc ops op : ids_high (ops ++ [op]) = Z.max (ids_high ops) (ids_high [op])
  /\ noise_high (ops ++ [op]) = Z.max (noise_high ops) (noise_high [op]).
Proof.
  unfold ids_high, noise_high. induction ops as [|p ops [A B]]; [cbn [app fold_right]; split; destruct op as [| |? ? ? ? ? [|] [|]]; lia|].
  cbn [app fold_right] in *. destruct p as [| |? ? ? ? ? [|] [|]]; rewrite ?A, ?B; split; lia.
Qed.
Lemma py_extend_repeat {A} (x : A) n m : 0 <= m -> py_extend x n (repeat x (Z.to_nat m)) = repeat x (Z.to_nat (Z.max m n)).
Proof.
  intros M. unfold py_extend, zlen. rewrite repeat_length, <- repeat_app. f_equal. lia.
Qed.
Lemma high_nonneg ops : 0 <= ids_high ops /\ 0 <= noise_high ops.
Proof. unfold ids_high, noise_high. induction ops as [|p ops [A B]]; [cbn; lia|]. cbn [fold_right]. destruct p as [| |? ? ? ? ? [|] [|]]; lia. Qed.
Lemma defaults_after ops :
  (0 < length (h_ids (phy_run heap_initial ops)))%nat /\ (0 < length (h_noise (phy_run heap_initial ops)))%nat
  /\ ids_at (phy_run heap_initial ops) 0 = repeat csi_default (Z.to_nat (ids_high ops))
  /\ noise_at (phy_run heap_initial ops) 0 = repeat 0 (Z.to_nat (noise_high ops)).
Proof.
  induction ops as [|op ops IH] using rev_ind; [cbn; repeat split; lia|].
  rewrite run_snoc. destruct (high_snoc ops op) as [-> ->]. destruct (high_nonneg ops) as [N1 N2].
  set (h := phy_run heap_initial ops) in *. destruct IH as (L1 & L2 & A & B). unfold ids_at, noise_at in *.
  destruct op as [l|l|u r t d n i j].
  - cbn [phy_step h_ids h_noise]. rewrite app_length, app_nth1 by exact L1. cbn [ids_high noise_high fold_right].
    rewrite !Z.max_l by lia. repeat split; try lia; assumption.
  - cbn [phy_step h_ids h_noise]. rewrite app_length, app_nth1 by exact L2. cbn [ids_high noise_high fold_right].
    rewrite !Z.max_l by lia. repeat split; try lia; assumption.
  - cbn [phy_step]. unfold construct. cbn [fst h_ids h_noise]. rewrite !update_length. unfold ids_at, noise_at.
    refine (conj L1 (conj L2 (conj _ _))).
    + destruct i as [i|]; cbn [ref ids_high fold_right].
      * rewrite nth_update_other by lia. rewrite Z.max_l by lia. exact A.
      * rewrite nth_update_same by exact L1. rewrite A, py_extend_repeat by lia. do 2 f_equal. lia.
    + destruct j as [j|]; cbn [ref noise_high fold_right].
      * rewrite nth_update_other by lia. rewrite Z.max_l by lia. exact B.
      * rewrite nth_update_same by exact L2. rewrite B, py_extend_repeat by lia. do 2 f_equal. lia.
Qed.
Lemma default_result ops up rx tx duty n h o :
  construct_default (phy_run heap_initial ops) up rx tx duty n = (h, Ok o) ->
  view h o = mkPhyStatus up rx tx duty n (repeat csi_default (Z.to_nat (Z.max (ids_high ops) n)))
                                         (repeat 0 (Z.to_nat (Z.max (noise_high ops) n))).
Proof.
  unfold construct_default. intros E. destruct (defaults_after ops) as (L1 & L2 & A & B). destruct (high_nonneg ops) as [N1 N2].
  apply constructed in E as (-> & E1 & E2); [|assumption|assumption]. unfold view.
  cbn [po_up po_rx po_tx po_duty po_len po_ids po_noise]. rewrite E1, E2, A, B, !py_extend_repeat by assumption. reflexivity.
Qed.
Lemma default_accepted ops up rx tx duty n :
  (exists h o, construct_default (phy_run heap_initial ops) up rx tx duty n = (h, Ok o)) <->
  long_ok up /\ long_ok rx /\ long_ok tx /\ 0 <= duty <= 1000 /\ 0 <= n <= 255 /\ ids_high ops <= 255 /\ noise_high ops <= 255.
Proof.
  unfold construct_default, construct. destruct (defaults_after ops) as (L1 & L2 & A & B). destruct (high_nonneg ops) as [N1 N2].
  rewrite A, B, !py_extend_repeat by assumption. unfold mk_phy_status. rewrite !py_extend_repeat by lia.
  unfold zlen. rewrite !repeat_length. unfold validated.
  match goal with |- context [if ?c then _ else _] => destruct c eqn:E end.
  - split; [intros _ | intros _; do 2 eexists; reflexivity]. unfold in_range, long_ok in *. lia.
  - split; [intros (h & o & [=]) | intros H; exfalso; unfold in_range, long_ok in *; lia].
Qed.
Lemma default_refused ops up rx tx duty n : 255 < ids_high ops \/ 255 < noise_high ops ->
  snd (construct_default (phy_run heap_initial ops) up rx tx duty n) = Err ValueError.
Proof.
  unfold construct_default, construct. destruct (defaults_after ops) as (L1 & L2 & A & B). destruct (high_nonneg ops) as [N1 N2]. intros H.
  rewrite A, B, !py_extend_repeat by assumption. cbn [snd]. unfold mk_phy_status. rewrite !py_extend_repeat by lia.
  unfold zlen. rewrite !repeat_length. rewrite validated_err; [reflexivity|]. unfold in_range. lia.
Qed.
Lemma items_repeat n a b : (n <= a)%nat -> (n <= b)%nat ->
  phy_status_items n (repeat csi_default a) (repeat 0 b) = phy_status_items n (repeat csi_default n) (repeat 0 n).
Proof.
  intros H1 H2. replace a with (n + (a - n))%nat by lia. replace b with (n + (b - n))%nat by lia.
  rewrite (repeat_app _ n (a - n)), (repeat_app _ n (b - n)). apply items_prefix; rewrite repeat_length; lia.
Qed.
Lemma default_bytes ops up rx tx duty n h o :
  construct_default (phy_run heap_initial ops) up rx tx duty n = (h, Ok o) ->
  phy_status_ser (view h o) = phy_status_ser (mkPhyStatus up rx tx duty n (repeat csi_default (Z.to_nat n)) (repeat 0 (Z.to_nat n))).
Proof.
  intros E. rewrite (default_result _ _ _ _ _ _ _ _ E). unfold phy_status_ser. cbn [ps_up ps_rx ps_tx ps_duty ps_len ps_ids ps_noise].
  rewrite items_repeat; [reflexivity | lia | lia].
Qed.
Lemma caller_list_extended h up rx tx duty n i j l l' :
  nth_error (h_ids h) (S i) = Some l -> nth_error (h_noise h) (S j) = Some l' ->
  ids_at (phy_step h (Construct up rx tx duty n (Some i) (Some j))) (S i) = l ++ repeat csi_default (Z.to_nat (n - zlen l))
  /\ noise_at (phy_step h (Construct up rx tx duty n (Some i) (Some j))) (S j) = l' ++ repeat 0 (Z.to_nat (n - zlen l')).
Proof.
  intros E1 E2. cbn [phy_step ref]. unfold construct. cbn [fst]. unfold ids_at, noise_at. cbn [h_ids h_noise].
  rewrite !nth_update_same by (apply nth_error_Some; congruence).
  rewrite (nth_error_nth _ _ _ E1), (nth_error_nth _ _ _ E2). auto.
Qed.

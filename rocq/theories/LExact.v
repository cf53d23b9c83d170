From Coq Require Import ZifyBool ZifyNat.
From Verif Require Import MBase MCt MPhy MProfile MOperands MSysFiles SFiles SContent LFiles LContent.
Open Scope Z_scope.

Lemma key_files k f : mk_key k = Ok f ->
  exists l, length l = 16%nat /\ Forall is_byte l /\ le_value l = k mod 2 ^ 128
    /\ file_ser (F_SecKey f) = Ok l
    /\ file_ser (F_RootKey f) = Ok (l ++ repeat 0 24)
    /\ file_ser (F_UserKey f) = Ok (l ++ repeat 0 24).
Proof.
  intros H. destruct (key_roundup 0 k f H) as (l & E & L & B & V). destruct (key_roundup 24 k f H) as (l' & E' & L' & B' & V').
  assert (l' = l).
  { clear - V V' L L' B B'. rewrite <- V in V'. clear V. revert l l' L L' B B' V'. generalize 16%nat.
    induction n as [|n IH]; intros l l' L L' B B' V; destruct l as [|x l], l' as [|y l']; try discriminate; [reflexivity|].
    inversion B as [|? ? Bx Bl]; inversion B' as [|? ? By Bl']; subst. cbn [le_value] in V. unfold is_byte in *.
    assert (x = y /\ le_value l' = le_value l) as [-> V'] by (split; nia || lia).
    f_equal. apply IH; auto. }
  subst l'. exists l. cbn [file_ser]. rewrite E, E'. cbn [repeat]. rewrite app_nil_r. auto 10.
Qed.
Lemma apf_without_profile sp :
  ((exists f, mk_apf sp None = Ok f) <-> 0 <= sp <= 14)
  /\ forall f, mk_apf sp None = Ok f -> file_ser (F_AccessProfile f) = Err TypeError.
Proof.
  unfold mk_apf. split.
  - split; [intros [f H]; apply validated_inv in H as [V _]; unfold in_range in V; lia|].
    intros H. eexists. apply validated_ok. unfold in_range. lia.
  - intros f H. apply validated_inv in H as [_ <-]. reflexivity.
Qed.
Lemma items_ser n : forall ids noise, (n <= length ids)%nat -> (n <= length noise)%nat -> Forall csi_wf ids ->
  match phy_status_items n ids noise with
  | Ok _ => Forall byte_ok (firstn n noise)
  | Err e => e = ValueError /\ ~ Forall byte_ok (firstn n noise)
  end.
Proof.
  induction n as [|n IH]; intros ids noise I N W; cbn [phy_status_items firstn]; [constructor|].
  destruct ids as [|c ids]; [cbn in I; lia|]. destruct noise as [|x noise]; [cbn in N; lia|].
  inversion W as [|? ? Wc Wi]; subst. cbn [length] in I, N. cbn [firstn].
  destruct (csi_codec c Wc) as [E _]. destruct E as (lc & Ec & _). rewrite Ec.
  specialize (IH ids noise ltac:(lia) ltac:(lia) Wi).
  destruct (yield1 x) as [lx|e] eqn:Ex.
  - assert (Bx : byte_ok x) by (unfold yield1 in Ex; destruct ((0 <=? x) && (x <=? 255)) eqn:Q; [unfold byte_ok; lia | discriminate]).
    cbn [rapp]. destruct (phy_status_items n ids noise) as [l|e].
    + constructor; assumption.
    + destruct IH as [-> NF]. split; [reflexivity|]. intros F. inversion F; subst. contradiction.
  - assert (Bx : e = ValueError /\ ~ byte_ok x) by (unfold yield1 in Ex; destruct ((0 <=? x) && (x <=? 255)) eqn:Q; [discriminate | unfold byte_ok; split; [congruence | lia]]).
    destruct Bx as [-> Bx]. split; [reflexivity|]. intros F. inversion F; subst. contradiction.
Qed.

Lemma phy_status_serialized up rx tx duty n ids noise f :
  mk_phy_status up rx tx duty n ids noise = Ok f -> Forall csi_wf ids ->
  (serializable (phy_status_ser f) <-> Forall byte_ok (firstn (Z.to_nat n) noise))
  /\ (~ serializable (phy_status_ser f) -> phy_status_ser f = Err ValueError).
Proof.
  unfold mk_phy_status. intros H W. apply validated_inv in H as [V <-].
  set (ids' := py_extend csi_default n ids) in *. set (noise' := py_extend 0 n noise) in *.
  assert (L : 0 <= up <= 4294967295 /\ 0 <= rx <= 4294967295 /\ 0 <= tx <= 4294967295 /\ 0 <= duty <= 1000 /\ 0 <= n <= 255)
    by (unfold in_range in V; lia).
  assert (Wi : Forall csi_wf ids').
  { unfold ids', py_extend. apply Forall_app. split; [exact W|]. apply Forall_forall. intros x I.
    apply repeat_spec in I as ->. unfold csi_default, csi_wf. cbn. lia. }
  assert (Li : (Z.to_nat n <= length ids')%nat) by (unfold ids', py_extend; rewrite app_length, repeat_length; unfold zlen; lia).
  assert (Ln : (Z.to_nat n <= length noise')%nat) by (unfold noise', py_extend; rewrite app_length, repeat_length; unfold zlen; lia).
  assert (F : Forall byte_ok (firstn (Z.to_nat n) noise') <-> Forall byte_ok (firstn (Z.to_nat n) noise)).
  { unfold noise', py_extend. rewrite firstn_app. rewrite Forall_app. split; [tauto|]. intros Q. split; [exact Q|].
    apply Forall_forall. intros x I. assert (J : In x (repeat 0 (Z.to_nat (n - zlen noise)))) by (rewrite <- (firstn_skipn (Z.to_nat n - length noise) (repeat 0 (Z.to_nat (n - zlen noise)))); apply in_or_app; auto).
    clear I. rename J into I. apply repeat_spec in I as ->. unfold byte_ok. lia. }
  pose proof (items_ser (Z.to_nat n) ids' noise' Li Ln Wi) as E.
  unfold phy_status_ser. cbn [ps_up ps_rx ps_tx ps_duty ps_len ps_ids ps_noise].
  rewrite !(pack_be_ok 4) by (change (2 ^ (8 * Z.of_nat 4)) with 4294967296; lia).
  rewrite (pack_be_ok 2) by (change (2 ^ (8 * Z.of_nat 2)) with 65536; lia).
  assert (Y : yield1 n = Ok [n]) by (unfold yield1; destruct ((0 <=? n) && (n <=? 255)) eqn:Q; [reflexivity | lia]).
  rewrite Y. unfold serializable. destruct (phy_status_items (Z.to_nat n) ids' noise') as [l|e]; cbn [rapp].
  - split; [split; [tauto | intros _; eexists; reflexivity]|]. intros N. exfalso. apply N. eexists. reflexivity.
  - destruct E as [-> NF]. split; [split; [intros [l Q]; discriminate Q | tauto]|]. intros _. reflexivity.
Qed.
Lemma added_entries up rx tx duty n ids noise f :
  mk_phy_status up rx tx duty n ids noise = Ok f ->
  ps_ids f = ids ++ repeat (mkCSI BAND_NOT_IMPL kHz25 0) (Z.to_nat (n - zlen ids))
  /\ ps_noise f = noise ++ repeat 0 (Z.to_nat (n - zlen noise)).
Proof. unfold mk_phy_status. intros H. apply validated_inv in H as [_ <-]. split; reflexivity. Qed.
Lemma iso_without_status id : 0 <= id <= 255 -> iso_ser (mkISO id None) = Err TypeError.
Proof.
  intros H. unfold iso_ser. cbn [iso_id iso_status]. unfold yield1.
  destruct ((0 <=? id) && (id <=? 255)) eqn:Q; [reflexivity | lia].
Qed.

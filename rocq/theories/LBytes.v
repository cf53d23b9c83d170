(** Whatever is serialized consists of bytes. *)
From Coq Require Import ZifyBool ZifyNat.
From Verif Require Export SContent LFiles.
Ltac Zify.zify_post_hook ::= Z.div_mod_to_equations.

Definition bytes_only (r : res (list Z)) : Prop := forall l, r = Ok l -> Forall is_byte l.
Lemma bo_ok l : Forall is_byte l -> bytes_only (Ok l).
Proof. intros H m [= <-]. exact H. Qed.
Lemma bo_nil : bytes_only (Ok []).
Proof. apply bo_ok. constructor. Qed.
Lemma bo_err e : bytes_only (Err e).
Proof. intros m [=]. Qed.
Lemma bo_yield1 z : bytes_only (yield1 z).
Proof. intros l E. apply yield1_inv in E as [H ->]. constructor; [unfold is_byte; lia | constructor]. Qed.
Lemma bo_yields l : bytes_only (yields l).
Proof. intros m E. apply yields_inv in E as [-> F]. eapply Forall_impl; [|exact F]. intros a. unfold byte_ok, is_byte. lia. Qed.
Lemma bo_pack_be n v : bytes_only (pack_be n v).
Proof. unfold pack_be. destruct (_ && _); [apply bo_ok, be_bytes_is_byte | apply bo_err]. Qed.
Lemma bo_pack_b v : bytes_only (pack_b v).
Proof.
  unfold pack_b. destruct (_ && _); [|apply bo_err]. apply bo_ok. constructor; [|constructor]. unfold is_byte.
  pose proof (Z.mod_pos_bound v 256). lia.
Qed.
Lemma bo_app a b : bytes_only a -> bytes_only b -> bytes_only (a +++ b).
Proof. intros A B l E. apply rapp_inv in E as (x & y & Ea & Eb & ->). apply Forall_app. split; auto. Qed.
Lemma bo_bind {A} (r : res A) f : (forall x, r = Ok x -> bytes_only (f x)) -> bytes_only (rbind r f).
Proof. intros H. destruct r; cbn [rbind]; [apply H; reflexivity | apply bo_err]. Qed.
Lemma bo_concat l : Forall bytes_only l -> bytes_only (rconcat l).
Proof. induction 1; cbn [rconcat]; [apply bo_nil | apply bo_app; assumption]. Qed.
Lemma bo_map {A} (f : A -> res (list Z)) l : (forall x, bytes_only (f x)) -> bytes_only (rconcat (map f l)).
Proof. intros H. apply bo_concat. apply Forall_forall. intros x I. apply in_map_iff in I as (y & <- & _). apply H. Qed.
Lemma skipn_bytes n l : Forall is_byte l -> Forall is_byte (skipn n l).
Proof. intros H. rewrite <- (firstn_skipn n l) in H. apply Forall_app in H. tauto. Qed.

Create HintDb bo discriminated.
#[export] Hint Resolve bo_nil bo_err bo_yield1 bo_yields bo_pack_be bo_pack_b bo_app bo_map : bo.
Ltac bo := repeat first [ solve [auto with bo nocore] | apply bo_app | apply bo_map; intros
  | apply bo_bind; intros | match goal with |- bytes_only (match ?x with _ => _ end) => destruct x end ].
Ltac bou f := unfold f; bo.
Lemma bo_ct c : bytes_only (ct_ser c). Proof. bou ct_ser. Qed.
Lemma bo_ch c : bytes_only (ch_ser c). Proof. bou ch_ser. Qed.
#[export] Hint Resolve bo_ct bo_ch : bo.
Lemma bo_cid c : bytes_only (cid_ser c). Proof. bou cid_ser. Qed.
Lemma bo_csi c : bytes_only (csi_ser c). Proof. bou csi_ser. Qed.
Lemma bo_sb c : bytes_only (sb_ser c). Proof. bou sb_ser. Qed.
Lemma bo_sp c : bytes_only (sp_ser c). Proof. bou sp_ser. Qed.
#[export] Hint Resolve bo_cid bo_csi bo_sb bo_sp : bo.
Lemma bo_ap c : bytes_only (ap_ser c). Proof. bou ap_ser. Qed.
Lemma bo_perm c : bytes_only (perm_ser c). Proof. bou perm_ser. Qed.
Lemma bo_prop c : bytes_only (prop_ser c). Proof. bou prop_ser. Qed.
#[export] Hint Resolve bo_ap bo_perm bo_prop : bo.
Lemma bo_fh c : bytes_only (fh_ser c). Proof. bou fh_ser. Qed.
Lemma bo_length c : bytes_only (length_ser c).
Proof.
  unfold length_ser. cbv zeta. destruct (_ =? 1); [bo|]. apply bo_bind. intros bs E.
  apply bo_pack_be in E. match goal with |- bytes_only (match ?l with _ => _ end) => destruct l end; bo.
Qed.
#[export] Hint Resolve bo_fh bo_length : bo.
Lemma bo_offset c : bytes_only (offset_ser c). Proof. bou offset_ser. Qed.
#[export] Hint Resolve bo_offset : bo.
Lemma bo_data c : bytes_only (data_ser c). Proof. bou data_ser. Qed.
Lemma bo_dr c : bytes_only (dr_ser c). Proof. bou dr_ser. Qed.
Lemma bo_fho c : bytes_only (fho_ser c). Proof. bou fho_ser. Qed.
Lemma bo_query c : bytes_only (query_ser c). Proof. bou query_ser. Qed.
Lemma bo_addr c : bytes_only (addr_ser c).
Proof.
  unfold addr_ser. do 2 (apply bo_app; [bo|]). cbv zeta. destruct (Nat.ltb _ _); [|bo].
  apply bo_bind. intros v _. apply bo_bind. intros bs E. apply bo_pack_be in E. apply bo_ok, skipn_bytes. exact E.
Qed.
Lemma bo_qos c : bytes_only (qos_ser c). Proof. bou qos_ser. Qed.
#[export] Hint Resolve bo_data bo_dr bo_fho bo_query bo_addr bo_qos : bo.
Lemma bo_conf c : bytes_only (conf_ser c). Proof. bou conf_ser. Qed.
Lemma bo_status c : bytes_only (status_ser c). Proof. bou status_ser. Qed.
Lemma bo_abp c : bytes_only (abp_ser c). Proof. bou abp_ser. Qed.
Lemma bo_otaa c : bytes_only (otaa_ser c). Proof. bou otaa_ser. Qed.
#[export] Hint Resolve bo_conf bo_status bo_abp bo_otaa : bo.
Lemma bo_ifconfig c : bytes_only (ifconfig_ser c). Proof. bou ifconfig_ser. Qed.
#[export] Hint Resolve bo_ifconfig : bo.
Lemma bo_ic c : bytes_only (ic_ser c). Proof. bou ic_ser. Qed.
Lemma bo_iso c : bytes_only (iso_ser c). Proof. bou iso_ser. Qed.
Lemma bo_ind c : bytes_only (indirect_ser c). Proof. bou indirect_ser. Qed.
Lemma bo_tag c : bytes_only (tag_ser c). Proof. bou tag_ser. Qed.
Lemma bo_fid c : bytes_only (fid_ser c). Proof. bou fid_ser. Qed.
#[export] Hint Resolve bo_ic bo_iso bo_ind bo_tag bo_fid : bo.
Lemma bo_op c : bytes_only (op_ser c). Proof. bou op_ser. Qed.
#[export] Hint Resolve bo_op : bo.
Lemma bo_action c : bytes_only (action_ser c). Proof. unfold action_ser. cbv zeta. bo. Qed.
#[export] Hint Resolve bo_action : bo.
Lemma bo_command c : bytes_only (command_ser c). Proof. bou command_ser. Qed.
Lemma bo_items n : forall a b, bytes_only (phy_status_items n a b).
Proof. induction n; intros a b; cbn [phy_status_items]; [bo|]. destruct a, b; bo; apply IHn. Qed.
#[export] Hint Resolve bo_items : bo.
Lemma bo_file f : bytes_only (file_ser f).
Proof.
  destruct f; cbn [file_ser]; unfold uid_ser, vid_ser, dll_config_ser, dll_status_ser, eng_ser, fw_ser, factory_ser,
    key_ser, phy_status_ser, apf_ser, icf_ser; bo.
Qed.

(** Returned system files, factories for system files, accepted objects. *)
From Coq Require Import ZifyBool ZifyNat.
From Verif Require Export SContent LHeap LTags LReser LBytes.
Ltac Zify.zify_post_hook ::= Z.div_mod_to_equations.

Lemma file_parse_entry e s f rest : file_parse e s = Ok (f, rest) ->
  match e, f with
  | F_Uid _, F_Uid x => uid_parse s = Ok (x, rest)
  | F_Factory _, F_Factory x => factory_parse s = Ok (x, rest)
  | F_Fw _, F_Fw x => fw_parse s = Ok (x, rest)
  | F_Eng _, F_Eng x => eng_parse s = Ok (x, rest)
  | F_Vid _, F_Vid x => vid_parse s = Ok (x, rest)
  | F_PhyStatus _, F_PhyStatus x => phy_status_parse s = Ok (x, rest)
  | F_DllConfig _, F_DllConfig x => dll_config_parse s = Ok (x, rest)
  | F_DllStatus _, F_DllStatus x => dll_status_parse s = Ok (x, rest)
  | F_AccessProfile _, F_AccessProfile x => apf_parse s = Ok (x, rest)
  | _, _ => False
  end.
Proof.
  destruct e; cbn [file_parse]; intros H; try discriminate;
  apply bindp_inv in H as (x & t & H & K); apply ret_inv in K as [-> ->]; try exact H;
  exfalso; eapply key_never_parsed; exact H.
Qed.
Lemma system_file_cases id e : system_file id = Some e ->
  match e with
  | F_Uid _ => id = 0 | F_Factory _ => id = 1 | F_Fw _ => id = 2 | F_Eng _ => id = 5 | F_Vid _ => id = 6
  | F_PhyStatus _ => id = 9 | F_DllConfig _ => id = 10 | F_DllStatus _ => id = 11
  | F_SecKey _ => id = 14 | F_RootKey _ => id = 24 | F_UserKey _ => id = 25
  | F_AccessProfile p => 32 <= id <= 46 /\ apf_spec p = id - 32
  | F_NotImpl i n => (id = 3 /\ i = Some 3) \/ (i = None /\ (id = 4 \/ id = 7 \/ id = 8 \/ id = 12 \/ id = 13 \/ 15 <= id <= 23 \/ 26 <= id <= 31))
  | F_IfConfig _ => False
  end.
Proof.
  unfold system_file, not_impl. intros H.
  repeat match type of H with (if ?c then _ else _) = _ => destruct c eqn:?; [injection H as <-; cbn [apf_spec]; first [lia | left; split; [lia | reflexivity] | right; split; [reflexivity | lia]]|] end.
  discriminate.
Qed.
Lemma system_file_small id : 0 <= id <= 46 <-> system_file id <> None.
Proof.
  unfold system_file. split; intros H.
  - repeat match goal with |- (if ?c then _ else _) <> _ => destruct c eqn:?; [discriminate|] end. lia.
  - repeat match type of H with (if ?c then _ else _) <> _ => destruct c eqn:?; [lia|] end. congruence.
Qed.
Lemma content_iff d f : data_wf d ->
  (try_parse_system_file d = Some f <-> content (off_id (d_offset d)) (d_data d) f).
Proof.
  intros (_ & _ & L & _). unfold try_parse_system_file. rewrite L. split.
  - intros H. destruct (system_file (off_id (d_offset d))) as [e|] eqn:E; [|discriminate].
    destruct (file_length e) as [n|] eqn:N; [|discriminate].
    destruct (Z.leb_spec (zlen (d_data d)) n) as [M|]; [|discriminate].
    destruct (file_parse e (stream_of (d_data d))) as [[f' rest]|] eqn:K; [|discriminate]. injection H as ->.
    apply file_parse_entry in K. apply system_file_cases in E.
    destruct e, f; try contradiction; cbn [content file_length] in *; injection N as <-;
    (refine (conj _ (conj _ _)); [solve [lia | tauto] | exact M | exists rest; exact K]).
  - intros H.
    destruct f; cbn [content] in H; try contradiction; destruct H as (E & M & rest & K);
    try (rewrite E; 
      lazymatch goal with |- match system_file ?i with _ => _ end = _ =>
        let v := eval vm_compute in (system_file i) in change (system_file i) with v end;
      cbn [file_length]; try change (15 + 3 * 10) with 45; rewrite (proj2 (Z.leb_le _ _) M); cbn [file_parse]; unfold bindp; rewrite K; reflexivity).
    assert (X : system_file (off_id (d_offset d)) = Some (F_AccessProfile (mkAPF (off_id (d_offset d) - 32) None))).
    { unfold system_file. repeat match goal with |- (if ?c then _ else _) = _ => destruct c eqn:?; [first [reflexivity | exfalso; lia]|] end. exfalso; lia. }
    rewrite X. cbn [file_length]. rewrite (proj2 (Z.leb_le _ _) M). cbn [file_parse]. unfold bindp. rewrite K. reflexivity.
Qed.
Lemma codec_parses {A} (p : P A) r l x bs : emits r l -> accepts p l x -> r = Ok bs -> parses p bs x.
Proof.
  intros (b & E & _ & B) A1 E'. rewrite E in E'. injection E' as <-. exists (St (0 + length l) []).
  unfold stream_of. rewrite B. specialize (A1 O []). rewrite app_nil_r in A1. exact A1.
Qed.
Lemma emits_size r l bs : emits r l -> r = Ok bs -> length l = (8 * length bs)%nat.
Proof. intros (b & E & _ & B) E'. rewrite E in E'. injection E' as <-. rewrite <- B. apply bytes_bits_length. Qed.
Lemma parses_unique {A} (p : P A) bs x y : parses p bs x -> parses p bs y -> x = y.
Proof. intros [r E] [r' E']. rewrite E in E'. congruence. Qed.

(** ** Which files come back as they were sent *)
Lemma content_survives d f id bs : data_wf d -> survives f -> sys_id f = Some id -> file_ser f = Ok bs ->
  off_id (d_offset d) = id -> d_data d = bs -> try_parse_system_file d = Some f.
Proof.
  intros W S I E Ei Ed. apply content_iff; [exact W|]. rewrite Ei, Ed.
  destruct f; cbn [survives] in S; try contradiction; cbn [sys_id] in I; injection I as <-; cbn [file_ser] in E; cbn [content];
  (split; [reflexivity|]).
  - destruct (uid_codec f S) as [A B]. pose proof (emits_size _ _ _ A E) as L. unfold uid_layout in L. rewrite Zbits_length in L.
    split; [unfold zlen; lia | exact (codec_parses _ _ _ _ _ A B E)].
  - destruct S as (S & L6 & L7). pose proof (fw_emits f S) as A. pose proof (emits_size _ _ _ A E) as L.
    unfold fw_layout in L. rewrite !app_length, !Zbits_length, !bytes_bits_length, !padded_length in L by lia.
    split; [unfold zlen; lia|]. refine (codec_parses _ _ _ _ _ A _ E). apply fw_survives; auto.
  - pose proof (em_emits f S) as A. pose proof (emits_size _ _ _ A E) as L.
    assert (L' : length (em_layout f) = 72%nat).
    { unfold em_layout, em_bits, cid_bits. rewrite !app_length, !Zbits_length. destruct (cid_header (em_channel f)). reflexivity. }
    split; [unfold zlen; lia|]. destruct A as (b & E1 & _ & B). rewrite E in E1. injection E1 as <-.
    unfold parses, stream_of. rewrite B. unfold em_layout. rewrite (em_accepts false f S). eauto.
  - destruct (vid_codec f S) as [A B]. pose proof (emits_size _ _ _ A E) as L. unfold vid_layout in L. rewrite app_length, !Zbits_length in L.
    split; [unfold zlen; lia | exact (codec_parses _ _ _ _ _ A B E)].
  - destruct S as [S N]. destruct (ps_codec f S) as [A B]. pose proof (emits_size _ _ _ A E) as L. rewrite ps_layout_length in L by exact S.
    assert (Z.of_nat (length (ps_ids f)) <= 10) by (destruct S as (_ & _ & _ & _ & _ & L1 & _); unfold zlen in L1; lia).
    split; [unfold zlen; lia | exact (codec_parses _ _ _ _ _ A B E)].
  - destruct (dc_codec f S) as [A B]. pose proof (emits_size _ _ _ A E) as L. unfold dc_layout, dc_bits in L. rewrite !app_length, !Zbits_length in L.
    split; [unfold zlen; lia | exact (codec_parses _ _ _ _ _ A B E)].
  - destruct (ds_codec f S) as [A B]. pose proof (emits_size _ _ _ A E) as L. unfold ds_layout, ds_bits in L.
    assert (H8 : length (ch_bits false (ds_header f)) = 8%nat) by (destruct (ds_header f); reflexivity).
    rewrite !app_length, !Zbits_length, H8 in L.
    split; [unfold zlen; lia | exact (codec_parses _ _ _ _ _ A B E)].
Qed.
(** more than ten channels exceed the declared length *)
Lemma content_large_phy d f bs : data_wf d -> ps_wf f -> 10 < ps_len f -> phy_status_ser f = Ok bs ->
  off_id (d_offset d) = 9 -> d_data d = bs -> try_parse_system_file d = None.
Proof.
  intros W S N E Ei Ed. destruct (try_parse_system_file d) as [g|] eqn:T; [|reflexivity].
  apply content_iff in T; [|exact W]. rewrite Ei, Ed in T.
  destruct (ps_codec f S) as [A _]. pose proof (emits_size _ _ _ A E) as L. rewrite ps_layout_length in L by exact S.
  assert (10 < Z.of_nat (length (ps_ids f))) by (destruct S as (_ & _ & _ & _ & _ & L1 & _); unfold zlen in L1; lia).
  destruct g; cbn [content] in T; unfold zlen in T; exfalso; lia.
Qed.
Lemma content_key d : data_wf d -> (off_id (d_offset d) = 14 \/ off_id (d_offset d) = 24 \/ off_id (d_offset d) = 25) ->
  try_parse_system_file d = None.
Proof.
  intros W I. destruct (try_parse_system_file d) as [g|] eqn:T; [|reflexivity].
  apply content_iff in T; [|exact W]. destruct g; cbn [content] in T; exfalso; lia.
Qed.
Lemma content_profile d p : data_wf d -> try_parse_system_file d = Some (F_AccessProfile p) -> apf_spec p = 0.
Proof.
  intros W T. apply content_iff in T; [|exact W]. destruct T as (_ & _ & rest & K). unfold apf_parse in K.
  apply bindp_inv in K as (x & t & _ & K). apply lift_inv in K as [K _]. unfold mk_apf in K. apply validated_inv in K as [_ <-]. reflexivity.
Qed.
Lemma content_id d f : data_wf d -> try_parse_system_file d = Some f ->
  (exists p, f = F_AccessProfile p) \/ sys_id f = Some (off_id (d_offset d)).
Proof.
  intros W T. apply content_iff in T; [|exact W].
  destruct f; cbn [content] in T; try contradiction; cbn [sys_id]; try (left; eexists; reflexivity); right; f_equal; lia.
Qed.

(** ** Factories *)
Lemma file_id_sys f n : sys_size f = Some n -> file_id f = Ok (sys_id f) /\ file_length f = Ok n.
Proof.
  destruct f; cbn [sys_size sys_id file_id file_length]; intros E; try (injection E as <-; split; reflexivity).
  unfold icf_length. destruct (ic_id (icf_conf f)); try discriminate; injection E as <-; split; reflexivity.
Qed.
Lemma create_read_sys_ok rnd f t conf id n : 0 <= rnd <= 255 -> conf_ok t conf ->
  sys_id f = Some id -> 0 <= id <= 255 -> sys_size f = Some n -> 0 <= n <= len_max ->
  creates (create_read_sys rnd f t conf) rnd t conf
    (act_bits false false (ReadFileData (mkDataRequest (mkOffset id (mkLength 0)) (mkLength n)))).
Proof.
  intros Hr Hc Hi Bi Hn Bn. destruct (file_id_sys f n Hn) as [E1 E2]. unfold create_read_sys, sys_offset.
  rewrite E1, E2, Hi. change (mk_length 0) with (Ok (mkLength 0)). cbn [rbind]. unfold mk_offset, mk_data_request.
  rewrite validated_ok by ranges. cbn [rbind]. destruct (mk_length_iff n) as [[_ L] _]. rewrite L by exact Bn. cbn [rbind].
  apply factory_creates; auto; [|exact I]. refine (conj (conj Bi _) Bn). unfold len_wf, len_max. cbn. lia.
Qed.
Lemma create_write_sys_ok rnd f t conf id n bs : 0 <= rnd <= 255 -> conf_ok t conf ->
  sys_id f = Some id -> 0 <= id <= 255 -> sys_size f = Some n -> file_ser f = Ok bs ->
  zlen bs <= len_max -> bs <> [] ->
  creates (create_write_sys rnd f t conf) rnd t conf
    (act_bits false false (WriteFileData (mkData (mkOffset id (mkLength 0)) (mkLength (zlen bs)) bs))).
Proof.
  intros Hr Hc Hi Bi Hn E Lb Nb. pose proof (bo_file f bs E) as Fb. destruct (file_id_sys f n Hn) as [E1 E2]. unfold create_write_sys, sys_offset.
  rewrite E1, E, Hi. change (mk_length 0) with (Ok (mkLength 0)). cbn [rbind]. unfold mk_offset.
  rewrite validated_ok by ranges. cbn [rbind].
  assert (O : 0 <= 0 <= len_max) by (unfold len_max; lia).
  destruct (data_args id 0 bs Bi O Fb Lb) as [W E']. rewrite E'. cbn [rbind].
  apply factory_creates; auto.
Qed.
Lemma create_sys_enum rnd n t conf : 
  create_read_sys rnd (F_NotImpl None n) t conf = Err ValueError /\ create_write_sys rnd (F_NotImpl None n) t conf = Err ValueError.
Proof.
  unfold create_read_sys, create_write_sys, sys_offset. cbn [file_id]. change (mk_length 0) with (Ok (mkLength 0)). cbn [rbind].
  split; (destruct t, conf; try apply factory_host; apply factory_refuses; auto; right; discriminate).
Qed.
Lemma create_sys_unserializable rnd f t conf e id n : sys_id f = Some id -> 0 <= id <= 255 -> sys_size f = Some n -> file_ser f = Err e ->
  conf = None \/ t <> IF_HOST -> create_write_sys rnd f t conf = Err e.
Proof.
  intros Hi Bi Hn E C. destruct (file_id_sys f n Hn) as [E1 E2]. unfold create_write_sys, sys_offset.
  rewrite E1, E, Hi. change (mk_length 0) with (Ok (mkLength 0)). cbn [rbind]. unfold mk_offset.
  rewrite validated_ok by ranges. cbn [rbind]. apply factory_refuses. exact C.
Qed.
Lemma table_ids id f : system_file id = Some f -> (sys_id f = Some id \/ (sys_id f = None /\ exists n, f = F_NotImpl None n)) /\ exists n, sys_size f = Some n /\ 0 <= n <= 65.
Proof.
  intros E. pose proof (system_file_cases id f E) as C. split.
  - destruct f; cbn [sys_id]; try (left; f_equal; lia); try contradiction.
    destruct C as [[-> ->]|[-> _]]; [left; reflexivity | right; split; [reflexivity | eexists; reflexivity]].
  - unfold system_file, not_impl in E.
    repeat match type of E with (if ?c then _ else _) = _ => destruct c eqn:?; [injection E as <-; cbn [sys_size ni_length]; eexists; split; [reflexivity | lia]|] end.
    discriminate.
Qed.

(** ** Accepted objects are serializable *)
Lemma emits_ser r l : emits r l -> serializable r.
Proof. intros (b & E & _). exists b. exact E. Qed.
Ltac byv E := apply validated_inv in E as [E <-]; unfold is_BYTE, in_range in E.
Lemma ser_ct e m c : mk_ct e m = Ok c -> ct_wf c /\ serializable (ct_ser c).
Proof. unfold mk_ct. intros E. byv E. assert (W : ct_wf (mkCT e m)) by (unfold ct_wf; cbn; lia). split; [exact W | eapply emits_ser, ct_emits, W]. Qed.
Lemma ser_cid h i c : mk_channel_id h i = Ok c -> cid_wf c /\ serializable (cid_ser c).
Proof. unfold mk_channel_id. intros E. byv E. assert (W : cid_wf (mkChannelID h i)) by (unfold cid_wf; cbn; lia). split; [exact W | eapply emits_ser, cid_emits, W]. Qed.
Lemma ser_csi b w i c : mk_csi b w i = Ok c -> csi_wf c /\ serializable (csi_ser c).
Proof. unfold mk_csi. intros E. byv E. assert (W : csi_wf (mkCSI b w i)) by (unfold csi_wf; cbn; lia). split; [exact W | eapply emits_ser, csi_emits, W]. Qed.
Lemma ser_sb st en ei cca duty c : mk_subband st en ei cca duty = Ok c -> sb_wf c /\ serializable (sb_ser c).
Proof. unfold mk_subband. intros E. byv E. assert (W : sb_wf (mkSubBand st en ei cca duty)) by (unfold sb_wf; cbn; lia). split; [exact W | eapply emits_ser, sb_emits, W]. Qed.
Lemma ser_sp b e m c p : mk_ct e m = Ok c -> mk_sub_profile b c = Ok p -> sp_wf p /\ serializable (sp_ser p).
Proof. intros C E. apply ser_ct in C as [C _]. unfold mk_sub_profile in E. byv E. assert (W : sp_wf (mkSubProfile b c)) by (split; [cbn; lia | exact C]). split; [exact W | eapply emits_ser, sp_emits, W]. Qed.
Lemma ser_ap h ps bs a : Forall sp_wf ps -> Forall sb_wf bs -> mk_access_profile h ps bs = Ok a -> ap_wf a /\ serializable (ap_ser a).
Proof.
  intros Fp Fb E. unfold mk_access_profile in E. apply validated_inv in E as [E <-].
  assert (W : ap_wf (mkAP h ps bs)) by (unfold ap_wf; cbn [ap_profiles ap_bands]; repeat split; try assumption; lia).
  split; [exact W | eapply emits_ser, ap_emits, W].
Qed.
Lemma ser_fh p q a i s l h : mk_fh p q a i s l = Ok h -> fh_wf h /\ serializable (fh_ser h).
Proof. unfold mk_fh. intros E. byv E. assert (W : fh_wf (mkFH p q a i s l)) by (unfold fh_wf; cbn; lia). split; [exact W | eapply emits_ser, fh_emits, W]. Qed.
Lemma ser_addr ac t i m a : (forall c, i = IdCT c -> ct_wf c) -> mk_addr ac t i m = Ok a -> addr_wf a /\ serializable (addr_ser a).
Proof.
  intros C E. unfold mk_addr in E. byv E. 
  assert (W : addr_wf (mkAddr ac t i m)).
  { unfold addr_wf. cbn [ad_access_class ad_id_type ad_id]. unfold addr_id_ok, in_range in E. split; [lia|].
    destruct t, i; try lia; try exact I. apply C. reflexivity. }
  split; [exact W | eapply emits_ser, addr_emits, W].
Qed.
Lemma ser_length v l : mk_length v = Ok l -> len_wf l /\ serializable (length_ser l).
Proof. intros E. apply mk_length_inv in E as [W _]. split; [exact W | eapply emits_ser, len_emits, W]. Qed.
Lemma ser_offset i l o : len_wf l -> mk_offset i l = Ok o -> off_wf o /\ serializable (offset_ser o).
Proof. intros L E. unfold mk_offset in E. byv E. assert (W : off_wf (mkOffset i l)) by (split; [cbn; lia | exact L]). split; [exact W | eapply emits_ser, off_emits, W]. Qed.
Lemma ser_data bs o d : off_wf o -> mk_data bs o = Ok d -> data_wf d /\ serializable (data_ser d).
Proof. intros O E. apply mk_data_inv in E as [W _]; [|exact O]. split; [exact W | eapply emits_ser, data_emits, W]. Qed.
Lemma ser_dr n o d : off_wf o -> mk_data_request n o = Ok d -> dr_wf d /\ serializable (dr_ser d).
Proof.
  intros O E. unfold mk_data_request in E. destruct (mk_length n) eqn:L; cbn [rbind] in E; [|discriminate]. injection E as <-.
  apply mk_length_inv in L as [L _]. assert (W : dr_wf (mkDataRequest o a)) by (split; assumption).
  split; [exact W | eapply emits_ser, dr_emits, W].
Qed.
Lemma ser_fho i h f : fh_wf h -> mk_fho i h = Ok f -> fho_wf f /\ serializable (fho_ser f).
Proof. intros O E. unfold mk_fho in E. byv E. assert (W : fho_wf (mkFHO i h)) by (split; [cbn; lia | exact O]). split; [exact W | eapply emits_ser, fho_emits, W]. Qed.
Lemma ser_uid u f : mk_uid u = Ok f -> serializable (uid_ser f).
Proof. unfold mk_uid. intros E. byv E. eapply emits_ser, uid_codec. unfold uid_wf. cbn. lia. Qed.
Lemma ser_vid v c f : mk_vid v c = Ok f -> serializable (vid_ser f).
Proof. unfold mk_vid. intros E. byv E. eapply emits_ser, vid_codec. unfold vid_wf, word_ok, byte_ok. cbn. lia. Qed.
Lemma ser_ds lv bu no h ix ra sc ti f : mk_dll_status lv bu no h ix ra sc ti = Ok f -> serializable (dll_status_ser f).
Proof. unfold mk_dll_status. intros E. byv E. eapply emits_ser, ds_codec. unfold ds_wf, long_ok, word_ok, byte_ok. cbn. lia. Qed.
Lemma ser_eng m fl ti c ei f : cid_wf c -> mk_eng m fl ti c ei = Ok f -> em_wf f /\ serializable (eng_ser f).
Proof. unfold mk_eng. intros C E. byv E. assert (W : em_wf (mkEng m fl ti c ei)) by (unfold em_wf, byte_ok; cbn [em_flags em_timeout em_channel em_eirp]; repeat split; try lia; apply C). split; [exact W | eapply emits_ser, em_emits, W]. Qed.
Lemma ser_fw a b c d app git f : Forall (fun x => 0 <= x <= 127) app -> Forall (fun x => 0 <= x <= 127) git ->
  mk_fw a b c d app git = Ok f -> serializable (fw_ser f).
Proof.
  intros A G E. unfold mk_fw in E. byv E. eapply emits_ser, fw_emits. unfold fw_wf, ascii_text, byte_ok.
  cbn [fw_major fw_minor fw_fs_major fw_fs_minor fw_app fw_git]. repeat split; try assumption; lia.
Qed.
Lemma ser_key rfu k f : mk_key k = Ok f -> serializable (key_ser rfu f).
Proof. intros E. destruct (key_roundup rfu k f E) as (l & K & _). eexists. exact K. Qed.
(** DLL configuration: only the access class is checked *)
Lemma dc_accepted ac lq nf rx tx : (exists f, mk_dll_config ac lq nf rx tx = Ok f) <-> 0 <= ac <= 255.
Proof.
  unfold mk_dll_config, validated, in_range. destruct (_ && _) eqn:E; split; intros H; try lia; [eexists; reflexivity|].
  destruct H; discriminate.
Qed.
Lemma dc_serializable ac lq nf rx tx f : mk_dll_config ac lq nf rx tx = Ok f ->
  (serializable (dll_config_ser f) <-> byte_ok lq /\ byte_ok nf /\ byte_ok rx /\ byte_ok tx).
Proof.
  unfold mk_dll_config. intros E. byv E. split.
  - intros [l K]. unfold dll_config_ser in K. cbn [dc_access_class dc_lq_filter dc_nf_ctrl dc_rx_nf dc_tx_nf] in K.
    repeat match goal with H : _ +++ _ = Ok _ |- _ => apply rapp_inv in H as (? & ? & ? & ? & ->) end.
    repeat match goal with H : yield1 _ = Ok _ |- _ => apply yield1_inv in H as [? ->] end.
    unfold byte_ok. auto.
  - intros H. eapply emits_ser, dc_codec. unfold dc_wf, byte_ok in *. cbn. lia.
Qed.
Lemma qos_serializable q : serializable (qos_ser q).
Proof. eapply emits_ser, qos_emits. Qed.
Lemma em_round_trip f : em_wf f ->
  emits (eng_ser f) (em_layout f) /\ forall ps rest, exists rest', eng_parse (St ps (em_layout f ++ rest)) = Ok (f, rest').
Proof.
  intros W. split; [apply em_emits; exact W|]. intros ps rest. unfold em_layout. rewrite <- app_assoc, (em_accepts false f W). eauto.
Qed.
Lemma em_layout_length f : length (em_layout f) = 72%nat.
Proof. unfold em_layout, em_bits, cid_bits. rewrite !app_length, !Zbits_length. destruct (cid_header (em_channel f)). reflexivity. Qed.
Lemma survives_size f bs n : survives f -> file_ser f = Ok bs -> sys_size f = Some n ->
  (forall p, f <> F_PhyStatus p) -> zlen bs = n.
Proof.
  intros S E N P. destruct f; cbn [survives] in S; try contradiction; cbn [sys_size] in N; injection N as <-; cbn [file_ser] in E; unfold zlen.
  - pose proof (emits_size _ _ _ (proj1 (uid_codec f S)) E) as L. unfold uid_layout in L. rewrite Zbits_length in L. lia.
  - destruct S as (S & L6 & L7). pose proof (emits_size _ _ _ (fw_emits f S) E) as L.
    unfold fw_layout in L. rewrite !app_length, !Zbits_length, !bytes_bits_length, !padded_length in L by lia. lia.
  - pose proof (emits_size _ _ _ (em_emits f S) E) as L. rewrite em_layout_length in L. lia.
  - pose proof (emits_size _ _ _ (proj1 (vid_codec f S)) E) as L. unfold vid_layout in L. rewrite app_length, !Zbits_length in L. lia.
  - destruct (P f eq_refl).
  - pose proof (emits_size _ _ _ (proj1 (dc_codec f S)) E) as L. unfold dc_layout, dc_bits in L. rewrite !app_length, !Zbits_length in L. lia.
  - pose proof (emits_size _ _ _ (proj1 (ds_codec f S)) E) as L. unfold ds_layout, ds_bits in L.
    assert (H8 : length (ch_bits false (ds_header f)) = 8%nat) by (destruct (ds_header f); reflexivity).
    rewrite !app_length, !Zbits_length, H8 in L. lia.
Qed.
Lemma fw_size f : fw_wf f -> emits (fw_ser f) (fw_layout f) /\ length (fw_layout f) = (8 * 17)%nat.
Proof.
  intros W. split; [apply fw_emits; exact W|]. destruct W as (_ & _ & _ & _ & [_ A] & [_ B]).
  unfold fw_layout. rewrite !app_length, !Zbits_length, !bytes_bits_length, !padded_length by assumption. reflexivity.
Qed.
Lemma fs_stores g r p t s o b sf ga pa f : mk_factory g r p t s o b sf ga pa = Ok f ->
  2 <= s /\ exists n, bits_needed s n /\ f = mkFactory g r p t (n - 1) o b sf ga pa.
Proof.
  intros E. apply mk_factory_ok in E as (S & -> & _). split; [exact S|]. exists (Z.log2_up s).
  split; [apply bits_needed_log2_up; lia | reflexivity].
Qed.
Lemma flat_len n l : length (flat_map (Zbits n) l) = (n * length l)%nat.
Proof. induction l as [|x l IH]; [cbn; lia|]. cbn [flat_map length]. rewrite app_length, Zbits_length, IH. lia. Qed.
Lemma fs_size f : fs_wf f -> emits (factory_ser f) (fs_layout f) /\ length (fs_layout f) = (8 * 56)%nat.
Proof.
  intros W. split; [apply fs_emits; exact W|]. destruct W as (_ & _ & A & _ & B & _ & C & _).
  unfold fs_layout. rewrite !app_length, !flat_len, !Zbits_length, A, B, C. reflexivity.
Qed.
Lemma key_overflow rfu f g : mk_key (2 ^ 128) = Ok f -> mk_key 0 = Ok g -> f <> g /\ key_ser rfu f = key_ser rfu g.
Proof. intros F G. vm_compute in F, G. injection F as <-. injection G as <-. split; [discriminate | reflexivity]. Qed.
Lemma ser_addr_built ac t i m a : (forall c, i = IdCT c -> exists e n, mk_ct e n = Ok c) ->
  mk_addr ac t i m = Ok a -> addr_wf a /\ serializable (addr_ser a).
Proof. intros H. apply ser_addr. intros c E. destruct (H c E) as (e & n & K). apply ser_ct in K. tauto. Qed.
Lemma dc_unchecked ac lq nf rx tx : ((exists f, mk_dll_config ac lq nf rx tx = Ok f) <-> 0 <= ac <= 255)
  /\ forall f, mk_dll_config ac lq nf rx tx = Ok f ->
     (serializable (dll_config_ser f) <-> byte_ok lq /\ byte_ok nf /\ byte_ok rx /\ byte_ok tx).
Proof. split; [apply dc_accepted | intros f; apply dc_serializable]. Qed.
Lemma only_bytes l : (forall c, command_ser c = Ok l -> Forall is_byte l) /\ (forall f, file_ser f = Ok l -> Forall is_byte l).
Proof. split; intros x E; [exact (bo_command x l E) | exact (bo_file x l E)]. Qed.

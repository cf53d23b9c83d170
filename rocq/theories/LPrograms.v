From Verif Require Import LBits LBytes LAction LCommand LTraffic LSend LSerialProps LModem LConnect LTypes LFiles LContent LCt LReser LReject LChannel LOta SPrograms.

(** ** Write actions *)
Definition write_act (id : Z) (bs : list Z) : Action :=
  mkAction (Regular false false) (WriteFileData (mkData (mkOffset id (mkLength 0)) (mkLength (zlen bs)) bs)).
Lemma write_act_layout id bs : zlen bs < 16384 -> action_layout (write_act id bs) = write_bits id (bytes_bits bs).
Proof.
  intro L. unfold action_layout, write_act, act_bits, write_bits. cbn [a_kind a_op opcode operand_layout].
  unfold data_layout, off_layout, len_layout. cbn [d_offset d_length d_data off_id off_offset len_value].
  replace (zlen (bytes_bits bs) / 8) with (zlen bs) by (unfold zlen; rewrite bytes_bits_length; lia).
  change (len_form (len_k 0) 0) with (Zbits 8 0). change ([false; false] ++ Zbits 6 4) with (Zbits 8 4).
  assert (0 <= zlen bs) by (unfold zlen; lia).
  replace (len_form (len_k (zlen bs)) (zlen bs)) with (if zlen bs <? 64 then Zbits 8 (zlen bs) else [false; true] ++ Zbits 14 (zlen bs)).
  - rewrite !app_assoc. reflexivity.
  - unfold len_k. change (2 ^ 6) with 64. change (2 ^ 14) with 16384. destruct (zlen bs <? 64) eqn:E.
    + unfold len_form. change (6 + 8 * 0)%nat with 6%nat. change 8%nat with (2 + 6)%nat. rewrite Zbits_app.
      rewrite Z.div_small by (change (2 ^ Z.of_nat 6) with 64; lia). reflexivity.
    + replace (zlen bs <? 16384) with true by lia. reflexivity.
Qed.
Lemma write_act_wf id bs : 0 <= id <= 255 -> Forall is_byte bs -> 0 < zlen bs < 16384 -> action_wf (write_act id bs).
Proof.
  intros I F L. split; cbn [a_op a_kind write_act op_wf sendable d_data].
  - unfold data_wf, off_wf, len_wf, len_max. cbn. repeat split; try assumption; try lia.
  - intros ->. cbn in L. lia.
Qed.
Lemma write_action_ok f id n bs l : sys_id f = Some id -> 0 <= id <= 255 -> sys_size f = Some n ->
  file_ser f = Ok bs -> bytes_bits bs = l -> zlen bs < 16384 ->
  write_action f = Ok (write_act id bs).
Proof.
  intros Hi Bi Hn E _ L. pose proof (bo_file f bs E) as Fb. destruct (file_id_sys f n Hn) as [E1 _]. unfold write_action, sys_offset.
  rewrite E1, E, Hi. change (mk_length 0) with (Ok (mkLength 0)). cbn [rbind]. unfold mk_offset.
  rewrite validated_ok by ranges. cbn [rbind].
  assert (O : 0 <= 0 <= len_max) by (unfold len_max; lia).
  destruct (data_args id 0 bs Bi O Fb ltac:(unfold len_max; lia)) as [_ E']. rewrite E'. reflexivity.
Qed.
Lemma write_action_err f id n e : sys_id f = Some id -> 0 <= id <= 255 -> sys_size f = Some n ->
  file_ser f = Err e -> write_action f = Err e.
Proof.
  intros Hi Bi Hn E. destruct (file_id_sys f n Hn) as [E1 _]. unfold write_action, sys_offset.
  rewrite E1, E, Hi. change (mk_length 0) with (Ok (mkLength 0)). cbn [rbind]. unfold mk_offset.
  rewrite validated_ok by ranges. reflexivity.
Qed.
Definition neighbours_conf : Configuration :=
  mkConf (mkQoS RESP_PREFERRED RETRY_NO false false) (mkCT 0 0) (mkAddr 17 NBID (IdCT (mkCT 0 2)) NLS_NONE).
Lemma broadcast_eq : broadcast_configuration = Ok neighbours_conf.
Proof. reflexivity. Qed.
Definition forward_act : Action := mkAction (Regular false false) (Forward (mkIC IF_D7ASP (Some (CfgD7 neighbours_conf)))).
Lemma forward_act_layout : action_layout forward_act = neighbours_bits.
Proof. vm_compute. reflexivity. Qed.
Lemma neighbours_wf : conf_wf neighbours_conf.
Proof. unfold conf_wf, ct_wf, addr_wf. cbn. unfold ct_wf. cbn. lia. Qed.
Lemma forward_act_wf : action_wf forward_act.
Proof. split; [exact neighbours_wf|]. split; [reflexivity|]. cbn. left. lia. Qed.

(** ** The command of engineering_mode.py *)
Definition eng_cmd (rnd : Z) (fwd : bool) (writes : list (Z * list Z)) : Command :=
  mkCommand ((if fwd then [forward_act] else []) ++ map (fun w => write_act (fst w) (snd w)) writes) None true (Some rnd) true false None.
Definition write_ok (w : Z * list Z) : Prop := 0 <= fst w <= 255 /\ Forall is_byte (snd w) /\ 0 < zlen (snd w) < 16384.
Lemma eng_cmd_wf rnd fwd ws : 0 <= rnd <= 255 -> Forall write_ok ws -> command_wf (eng_cmd rnd fwd ws).
Proof.
  intros R F. refine (conj _ (conj _ (conj eq_refl _))); cbn [c_actions eng_cmd c_generate c_tag].
  - apply Forall_app. split; [destruct fwd; repeat constructor; apply forward_act_wf|].
    apply Forall_map. eapply Forall_impl; [|exact F]. intros [i b] (A & B & C). apply write_act_wf; assumption.
  - rewrite forallb_app. apply andb_true_intro. split; [destruct fwd; reflexivity|]. clear F. induction ws as [|w ws IH]; [reflexivity | exact IH].
  - intros _. exists rnd. auto.
Qed.
Lemma eng_cmd_layout rnd fwd ws : Forall write_ok ws -> command_layout (eng_cmd rnd fwd ws)
  = tag_bits true rnd ++ (if fwd then neighbours_bits else []) ++ flat_map (fun w => write_bits (fst w) (bytes_bits (snd w))) ws.
Proof.
  intro F. unfold command_layout. cbn [c_actions eng_cmd c_generate c_tag c_respond]. f_equal. rewrite flat_map_app. f_equal.
  - destruct fwd; [cbn [flat_map]; rewrite app_nil_r; apply forward_act_layout | reflexivity].
  - induction ws as [|w ws IH]; [reflexivity|]. inversion F as [|? ? (_ & _ & W) F']; subst. cbn [map flat_map].
    rewrite IH by exact F'. f_equal. apply write_act_layout. lia.
Qed.

Lemma engineering_eq rnd o : engineering_command rnd o =
  match cid_from_string (eo_channel o) with
  | Err e => Err e
  | Ok ch =>
      match mk_eng (eo_mode o) 0 (em_timeout (eng_requested o ch)) ch (eo_eirp o) with
      | Err e => Err e
      | Ok em =>
          let! l := if factory_given o then let! f := factory_with (eo_gaussian o) (eo_paramp o) in
                                            let! a := write_action (F_Factory f) in Ok [a]
                    else Ok [] in
          let! a := write_action (F_Eng em) in
          Ok (mkCommand ((if eo_forward o then [forward_act] else []) ++ l ++ [a]) None true (Some rnd) true false None)
      end
  end.
Proof.
  unfold engineering_command, eng_file. destruct (cid_from_string _) as [ch|]; cbn [rbind]; [|reflexivity].
  replace (match eo_mode o with EM_PER_TX => if eo_timeout o =? 0 then 255 else eo_timeout o | _ => eo_timeout o end)
    with (em_timeout (eng_requested o ch)) by (cbn; destruct (eo_mode o), (eo_timeout o); reflexivity).
  destruct (mk_eng _ _ _ _ _) as [em|]; cbn [rbind]; [|reflexivity].
  unfold factory_given. rewrite negb_andb. rewrite broadcast_eq.
  destruct (eo_forward o), (negb (eo_gaussian o =? 255) || negb (eo_paramp o =? 255));
    cbn [rbind mk_command command_loop c_tag validated negb add_forward_action mk_action];
    try (destruct (factory_with _ _) as [f|]; cbn [rbind]; [|reflexivity]; destruct (write_action (F_Factory f)); cbn [rbind]; [|reflexivity]);
    (destruct (write_action (F_Eng em)); cbn [rbind]; [|reflexivity]; reflexivity).
Qed.
Lemma factory_with_eq g p : factory_with g p =
  if (0 <=? g) && (g <=? 3) && ((0 <=? p) && (p <=? 65535)) then Ok (default_settings g p) else Err ValueError.
Proof. unfold factory_with, mk_factory. cbn [smooth Z.leb rbind]. unfold in_range. cbn. reflexivity. Qed.
Lemma default_wf g p : 0 <= g <= 3 -> 0 <= p <= 65535 -> fs_wf (default_settings g p).
Proof.
  intros G P. unfold fs_wf, default_settings, long_ok, byte_ok, word_ok. cbn.
  repeat split; try lia; repeat constructor; cbn; lia.
Qed.
Lemma em_requested_wf o ch : cid_from_string (eo_channel o) = Ok ch -> eng_options_ok o -> em_wf (eng_requested o ch).
Proof.
  intros C (E & T & _). apply from_string_wf in C. unfold em_wf, byte_ok, cid_wf, eng_requested.
  cbn [em_flags em_timeout em_channel em_eirp]. repeat split; try lia; try apply C; destruct (eo_mode o), (eo_timeout o); lia.
Qed.
Lemma mk_eng_eq m t ch e : mk_eng m 0 t ch e = if (0 <=? t) && (t <=? 255) && ((-128 <=? e) && (e <=? 127)) then Ok (mkEng m 0 t ch e) else Err ValueError.
Proof. reflexivity. Qed.

(** the bytes of the two files *)
Lemma bytes_of_emits r l n : emits r l -> length l = (8 * n)%nat -> exists bs, r = Ok bs /\ Forall is_byte bs /\ bytes_bits bs = l /\ zlen bs = Z.of_nat n.
Proof.
  intros (bs & E & F & B) L. exists bs. refine (conj E (conj F (conj B _))). unfold zlen.
  rewrite <- B, bytes_bits_length in L. lia.
Qed.
Lemma em_bytes f : em_wf f -> exists bs, eng_ser f = Ok bs /\ Forall is_byte bs /\ bytes_bits bs = em_layout f /\ zlen bs = 9.
Proof. intro W. apply (bytes_of_emits _ _ 9 (proj1 (em_round_trip f W))). apply em_layout_length. Qed.
Lemma fs_bytes f : fs_wf f -> exists bs, factory_ser f = Ok bs /\ Forall is_byte bs /\ bytes_bits bs = fs_layout f /\ zlen bs = 56.
Proof. intro W. destruct (fs_size f W) as [E L]. exact (bytes_of_emits _ _ 56 E L). Qed.

Lemma engineering_built rnd o ch : cid_from_string (eo_channel o) = Ok ch -> eng_options_ok o ->
  exists ws bs, engineering_command rnd o = Ok (eng_cmd rnd (eo_forward o) (ws ++ [(5, bs)])) /\ Forall write_ok (ws ++ [(5, bs)])
  /\ bytes_bits bs = em_layout (eng_requested o ch) /\ zlen bs = 9
  /\ (if factory_given o then exists fb, ws = [(1, fb)] /\ bytes_bits fb = fs_layout (default_settings (eo_gaussian o) (eo_paramp o)) /\ zlen fb = 56
      else ws = []).
Proof.
  intros C K. pose proof (em_requested_wf o ch C K) as W. destruct (em_bytes _ W) as (bs & E & F & B & L).
  destruct K as (K1 & K2 & K3). rewrite engineering_eq, C, mk_eng_eq.
  assert (0 <= em_timeout (eng_requested o ch) <= 255) as T by (destruct W as (_ & T & _); exact T).
  replace ((0 <=? em_timeout (eng_requested o ch)) && (em_timeout (eng_requested o ch) <=? 255) && ((-128 <=? eo_eirp o) && (eo_eirp o <=? 127))) with true by lia.
  change (mkEng (eo_mode o) 0 (em_timeout (eng_requested o ch)) ch (eo_eirp o)) with (eng_requested o ch).
  assert (write_action (F_Eng (eng_requested o ch)) = Ok (write_act 5 bs)) as WE
    by (apply (write_action_ok (F_Eng (eng_requested o ch)) 5 9 _ _ eq_refl ltac:(lia) eq_refl E B); lia).
  assert (write_ok (5, bs)) as OK5 by (repeat split; cbn [fst snd]; [lia | lia | exact F | lia | lia]).
  destruct (factory_given o) eqn:G.
  - destruct (K3 eq_refl) as [G1 G2]. pose proof (default_wf _ _ G1 G2) as WF. destruct (fs_bytes _ WF) as (fb & E' & F' & B' & L').
    rewrite factory_with_eq. replace (_ && _) with true by lia. cbn [rbind].
    assert (write_action (F_Factory (default_settings (eo_gaussian o) (eo_paramp o))) = Ok (write_act 1 fb)) as WF1
      by (apply (write_action_ok (F_Factory (default_settings (eo_gaussian o) (eo_paramp o))) 1 56 _ _ eq_refl ltac:(lia) eq_refl E' B'); lia).
    rewrite WF1, WE. cbn [rbind]. exists [(1, fb)], bs. refine (conj eq_refl (conj _ (conj B (conj L _)))).
    + constructor; [repeat split; cbn [fst snd]; [lia | lia | exact F' | lia | lia] | constructor; [exact OK5 | constructor]].
    + exists fb. auto.
  - cbn [rbind]. rewrite WE. cbn [rbind]. exists [], bs. refine (conj eq_refl (conj _ (conj B (conj L eq_refl)))).
    constructor; [exact OK5 | constructor].
Qed.
Lemma engineering_bytes rnd o ch : 0 <= rnd <= 255 -> cid_from_string (eo_channel o) = Ok ch -> eng_options_ok o ->
  exists c, engineering_command rnd o = Ok c /\ c_tag c = Some rnd
  /\ emits (command_ser c)
       (tag_bits true rnd ++ (if eo_forward o then neighbours_bits else [])
        ++ (if factory_given o then write_bits 1 (fs_layout (default_settings (eo_gaussian o) (eo_paramp o))) else [])
        ++ write_bits 5 (em_layout (eng_requested o ch))).
Proof.
  intros R C K. destruct (engineering_built rnd o ch C K) as (ws & bs & E & F & B & _ & G). eexists. split; [exact E|]. split; [reflexivity|].
  pose proof (command_emits _ (eng_cmd_wf rnd (eo_forward o) _ R F)) as M. rewrite eng_cmd_layout in M by exact F.
  rewrite flat_map_app in M. cbn [flat_map fst snd] in M. rewrite app_nil_r, B in M.
  destruct (factory_given o).
  - destruct G as (fb & -> & B' & _). cbn [flat_map fst snd] in M. rewrite app_nil_r, B' in M. exact M.
  - subst ws. exact M.
Qed.
Lemma engineering_refused rnd o ch : cid_from_string (eo_channel o) = Ok ch -> ~ eng_options_ok o ->
  engineering_command rnd o = Err ValueError.
Proof.
  intros C K. rewrite engineering_eq, C, mk_eng_eq.
  destruct ((0 <=? em_timeout (eng_requested o ch)) && (em_timeout (eng_requested o ch) <=? 255) && ((-128 <=? eo_eirp o) && (eo_eirp o <=? 127))) eqn:T; [|reflexivity].
  assert (0 <= eo_timeout o <= 255) as T1 by (cbn [em_timeout eng_requested] in T; destruct (eo_mode o), (eo_timeout o); lia).
  destruct (factory_given o) eqn:G.
  - rewrite factory_with_eq. destruct ((0 <=? eo_gaussian o) && (eo_gaussian o <=? 3) && ((0 <=? eo_paramp o) && (eo_paramp o <=? 65535))) eqn:X; [|reflexivity]. exfalso. apply K.
    unfold eng_options_ok. repeat split; lia.
  - exfalso. apply K. unfold eng_options_ok. rewrite G. repeat split; try lia; discriminate.
Qed.
Lemma engineering_accepted rnd o :
  (exists c, engineering_command rnd o = Ok c) <-> (exists ch, cid_from_string (eo_channel o) = Ok ch) /\ eng_options_ok o.
Proof.
  split.
  - intros [c E]. destruct (cid_from_string (eo_channel o)) as [ch|] eqn:C.
    + split; [eauto|]. assert (D : eng_options_ok o \/ ~ eng_options_ok o).
      { unfold eng_options_ok. destruct (factory_given o); destruct (Z_le_dec (-128) (eo_eirp o)), (Z_le_dec (eo_eirp o) 127), (Z_le_dec 0 (eo_timeout o)), (Z_le_dec (eo_timeout o) 255); try (right; lia);
        destruct (Z_le_dec 0 (eo_gaussian o)), (Z_le_dec (eo_gaussian o) 3), (Z_le_dec 0 (eo_paramp o)), (Z_le_dec (eo_paramp o) 65535); try (left; repeat split; intros; lia); try (left; repeat split; try lia; discriminate);
        right; intros (_ & _ & H); specialize (H eq_refl); lia. }
      destruct D as [D|D]; [exact D|]. rewrite (engineering_refused rnd o ch C D) in E. discriminate.
    + rewrite engineering_eq, C in E. discriminate.
  - intros [[ch C] K]. destruct (engineering_built rnd o ch C K) as (ws & bs & E & _). eauto.
Qed.
Lemma engineering_channel rnd o e : cid_from_string (eo_channel o) = Err e -> engineering_command rnd o = Err e.
Proof. intro C. rewrite engineering_eq, C. reflexivity. Qed.
Lemma paramp_alone rnd o : eo_gaussian o = 255 -> eo_paramp o <> 255 -> forall c, engineering_command rnd o <> Ok c.
Proof.
  intros G P c E. assert (exists c, engineering_command rnd o = Ok c) as X by eauto.
  apply engineering_accepted in X as (_ & _ & _ & H). assert (factory_given o = true) as F by (unfold factory_given; rewrite G; cbn; lia).
  destruct (H F). lia.
Qed.

(** ** What the node has afterwards *)
Lemma receives_write id file w : node_write id file (action_received (write_act (fst w) (snd w)))
  = if fst w =? id then snd w ++ skipn (length (snd w)) file else file.
Proof. unfold action_received, node_write, write_act. cbn [a_kind a_op d_offset d_data off_id off_offset len_value]. destruct (fst w =? id); reflexivity. Qed.
Lemma receives_cmd rnd fwd ws id file : node_receives id file (command_received (eng_cmd rnd fwd ws))
  = fold_left (fun f w => if fst w =? id then snd w ++ skipn (length (snd w)) f else f) ws file.
Proof.
  unfold node_receives, command_received, eng_cmd. cbn [c_actions]. rewrite map_app, fold_left_app.
  replace (fold_left (node_write id) (map action_received (if fwd then [forward_act] else [])) file) with file by (destruct fwd; reflexivity).
  revert file. induction ws as [|w ws IH]; intro file; [reflexivity|]. cbn [map fold_left]. rewrite receives_write, IH. reflexivity.
Qed.
Lemma engineering_node rnd o ch c : cid_from_string (eo_channel o) = Ok ch -> engineering_command rnd o = Ok c ->
  node_gets c 5 (em_layout (eng_requested o ch))
  /\ (if factory_given o then node_gets c 1 (fs_layout (default_settings (eo_gaussian o) (eo_paramp o))) else node_keeps c 1)
  /\ forall id, id <> 1 -> id <> 5 -> node_keeps c id.
Proof.
  intros C E. assert (eng_options_ok o) as K by (eapply engineering_accepted; eauto).
  destruct (engineering_built rnd o ch C K) as (ws & bs & E' & _ & B & _ & G). rewrite E in E'. injection E' as ->.
  unfold node_gets, node_keeps. refine (conj _ (conj _ _)).
  - intro file. rewrite receives_cmd. rewrite fold_left_app. cbn [fold_left fst snd Z.eqb Pos.eqb]. rewrite bytes_bits_app, B. eauto.
  - destruct (factory_given o).
    + destruct G as (fb & -> & B' & _). intro file. rewrite receives_cmd. cbn [app fold_left fst snd Z.eqb Pos.eqb].
      rewrite bytes_bits_app, B'. eauto.
    + subst ws. intro file. rewrite receives_cmd. reflexivity.
  - intros id N1 N5 file. rewrite receives_cmd. destruct (factory_given o).
    + destruct G as (fb & -> & _). cbn [app fold_left fst snd]. replace (1 =? id) with false by lia. replace (5 =? id) with false by lia. reflexivity.
    + subst ws. cbn [app fold_left fst snd]. replace (5 =? id) with false by lia. reflexivity.
Qed.
Lemma engineering_mode_set rnd o ch c file : cid_from_string (eo_channel o) = Ok ch -> engineering_command rnd o = Ok c ->
  parses eng_parse (node_receives 5 file (command_received c)) (eng_requested o ch).
Proof.
  intros C E. assert (eng_options_ok o) as K by (eapply engineering_accepted; eauto).
  destruct (engineering_node rnd o ch c C E) as (G & _). destruct (G file) as (rest & B). unfold parses, stream_of. rewrite B.
  apply em_round_trip. apply em_requested_wf; assumption.
Qed.
Lemma gaussian_alone rnd o ch c : cid_from_string (eo_channel o) = Ok ch -> engineering_command rnd o = Ok c ->
  eo_gaussian o <> 255 -> eo_paramp o = 255 ->
  node_gets c 1 (fs_layout (default_settings (eo_gaussian o) 255)).
Proof.
  intros C E G P. destruct (engineering_node rnd o ch c C E) as (_ & H & _).
  assert (factory_given o = true) as F by (unfold factory_given; rewrite P; cbn; lia). rewrite F, P in H. exact H.
Qed.
Lemma cleanup_node rnd f : 0 <= rnd <= 255 -> em_wf f -> exists c, cleanup_command rnd f = Ok c
  /\ emits (command_ser c) (tag_bits true rnd ++ write_bits 5 (em_layout (switched_off f)))
  /\ (forall file, parses eng_parse (node_receives 5 file (command_received c)) (switched_off f))
  /\ forall id, id <> 5 -> node_keeps c id.
Proof.
  intros R W. assert (W' : em_wf (switched_off f)) by exact W. destruct (em_bytes _ W') as (bs & E & F & B & L).
  unfold cleanup_command. cbn [mk_command command_loop rbind c_tag validated negb]. fold (switched_off f).
  rewrite (write_action_ok (F_Eng (switched_off f)) 5 9 bs _ eq_refl ltac:(lia) eq_refl E B ltac:(lia)). cbn [rbind].
  exists (eng_cmd rnd false [(5, bs)]). refine (conj eq_refl _).
  assert (FW : Forall write_ok [(5, bs)]) by (constructor; [repeat split; cbn [fst snd]; [lia | lia | exact F | lia | lia] | constructor]).
  split; [|split].
  - pose proof (command_emits _ (eng_cmd_wf rnd false _ R FW)) as M. rewrite eng_cmd_layout in M by exact FW. cbn [flat_map fst snd app] in M.
    rewrite app_nil_r, B in M. exact M.
  - intro file. rewrite receives_cmd. cbn [fold_left fst snd Z.eqb Pos.eqb]. unfold parses, stream_of. rewrite bytes_bits_app, B. apply em_round_trip. exact W'.
  - intros id N file. rewrite receives_cmd. cbn [fold_left fst snd]. replace (5 =? id) with false by lia. reflexivity.
Qed.

(** ** The loop *)
Lemma look_at_spec answers : forall done, match look_at_answers answers done with
  | Ok b => (forall m, In m answers -> exists a, m = MCmd a /\ c_error a <> None) /\ b = done || existsb answer_good answers
  | Err e => e = AttributeError /\ exists m, In m answers /\ ~ exists a, m = MCmd a /\ c_error a <> None
  end.
Proof.
  induction answers as [|m l IH]; intro done; cbn [look_at_answers existsb].
  - split; [intros ? []|]. rewrite orb_false_r. reflexivity.
  - destruct m as [x|x|a]; try (split; [reflexivity|]; eexists; split; [left; reflexivity|]; intros (a & X & _); discriminate).
    destruct (c_error a) as [e|] eqn:Er.
    + specialize (IH (if c_completed a && negb e then true else done)). destruct (look_at_answers l _).
      * destruct IH as [A B]. split.
        -- intros m [<-|I]; [exists a; split; [reflexivity | congruence] | apply A; exact I].
        -- rewrite B. cbn [answer_good]. rewrite Er. destruct (c_completed a), e, done, (existsb answer_good l); reflexivity.
      * destruct IH as (A & m & I & N). split; [exact A|]. exists m. split; [right; exact I | exact N].
    + split; [reflexivity|]. exists (MCmd a). split; [left; reflexivity|]. intros (b & X & Y). injection X as <-. congruence.
Qed.
Definition unfinished (x : Command * list Msg) : Prop := ~ confirmed x /\ all_tag_responses x.
Definition eng_outcome (n : nat) (log : list (Command * list Msg)) (st : EngState) : Prop :=
  match st with
  | EngDone => exists l x, log = l ++ [x] /\ Forall unfinished l /\ confirmed x /\ all_tag_responses x
  | EngRaised e => e = AttributeError /\ exists l x, log = l ++ [x] /\ Forall unfinished l /\ ~ all_tag_responses x
  | EngRunning => length log = n /\ Forall unfinished log
  end.
Lemma engineering_loop lib c : command_wf c -> command_bytes c <= 255 -> forall rounds s s' log st,
  usable_session s -> engineering lib s c rounds = (s', log, st) ->
  eng_outcome (length rounds) log st /\ Forall (fun x => fst x = c) log
  /\ exists l, Forall (sent_ok false) l /\ se_sent s' = se_sent s ++ wire l
      /\ delivered l = map (fun x => (1, MCmd (command_received (fst x)))) log.
Proof.
  intros Wc Bc. induction rounds as [|es rounds IH]; intros s s' log st U E.
  - cbn [engineering] in E. injection E as <- <- <-. split; [split; [reflexivity | constructor]|]. split; [constructor|].
    exists []. rewrite app_nil_r. repeat split; constructor.
  - assert (E' : match execute s c 10 with
          | (s, Err e) => (s, [], EngRaised e)
          | (s, Ok _) =>
              let s := devices lib s es in
              match look_at_answers (execute_result s) false with
              | Err e => (s, [(c, execute_result s)], EngRaised e)
              | Ok true => (s, [(c, execute_result s)], EngDone)
              | Ok false => match engineering lib s c rounds with
                   | (s', log, st) => (s', (c, execute_result s) :: log, st)
                   end
              end end = (s', log, st)) by exact E. clear E.
    destruct (round_ok lib s c es U Wc Bc) as (bs & s1 & Eb & Pb & Ex & U1 & Sn & _ & Tg).
    rewrite Ex in E'. cbv zeta in E'.
    assert (SO : sent_ok false (mkSent (sp_up (r_parser (se_reader s))) 1 bs (MCmd (command_received c)))).
    { destruct (transmits_command c Wc Bc) as (bs' & Eb' & _ & Ca). assert (bs' = bs) as -> by congruence.
      unfold sent_ok. cbn [s_counter s_type s_payload s_msg]. refine (conj (proj1 U) (conj _ (conj Pb Ca))). unfold is_byte. lia. }
    pose proof (good_confirmed c _ Tg) as G. pose proof (look_at_spec (execute_result (devices lib s1 es)) false) as LA.
    assert (One : exists l, Forall (sent_ok false) l /\ se_sent (devices lib s1 es) = se_sent s ++ wire l
      /\ delivered l = map (fun x : Command * list Msg => (1, MCmd (command_received (fst x)))) [(c, execute_result (devices lib s1 es))]).
    { exists [mkSent (sp_up (r_parser (se_reader s))) 1 bs (MCmd (command_received c))].
      split; [constructor; [exact SO|constructor]|]. split; [|reflexivity].
      rewrite Sn. cbn [wire flat_map]. rewrite app_nil_r. reflexivity. }
    destruct (look_at_answers (execute_result (devices lib s1 es)) false) as [[|]|e].
    + injection E' as <- <- <-. destruct LA as [A B]. cbn [orb] in B. split; [|split; [repeat constructor | exact One]].
      exists [], (c, execute_result (devices lib s1 es)). split; [reflexivity|]. split; [constructor|]. split; [apply G; congruence | exact A].
    + destruct LA as [A B]. cbn [orb] in B. destruct (engineering lib (devices lib s1 es) c rounds) as [[s2 log2] st2] eqn:E2.
      injection E' as <- <- <-. destruct (IH _ _ _ _ U1 E2) as (O & Fc & l & Fl & Sl & Dl).
      assert (UF : unfinished (c, execute_result (devices lib s1 es))) by (split; [intro X; apply G in X; congruence | exact A]).
      split; [|split; [constructor; [reflexivity | exact Fc]|]].
      * destruct st2; cbn [eng_outcome] in *.
        -- destruct O as (l0 & x & -> & O1 & O2). exists ((c, execute_result (devices lib s1 es)) :: l0), x. split; [reflexivity|]. split; [constructor; assumption | exact O2].
        -- destruct O as (O0 & l0 & x & -> & O1 & O2). split; [exact O0|]. exists ((c, execute_result (devices lib s1 es)) :: l0), x. split; [reflexivity|]. split; [constructor; assumption | exact O2].
        -- destruct O as [O0 O1]. split; [cbn [length]; congruence | constructor; assumption].
      * exists (mkSent (sp_up (r_parser (se_reader s))) 1 bs (MCmd (command_received c)) :: l).
        split; [constructor; assumption|]. split.
        -- rewrite Sl, Sn, <- app_assoc. reflexivity.
        -- cbn [delivered map s_type s_msg fst]. f_equal. exact Dl.
    + injection E' as <- <- <-. destruct LA as (A & m & I & N). split; [|split; [repeat constructor | exact One]].
      split; [exact A|]. exists [], (c, execute_result (devices lib s1 es)). split; [reflexivity|]. split; [constructor|].
      intro X. apply N. apply X. exact I.
Qed.
Lemma engineering_wf rnd o c : 0 <= rnd <= 255 -> engineering_command rnd o = Ok c -> command_wf c /\ command_bytes c <= 255.
Proof.
  intros R E. assert (exists c, engineering_command rnd o = Ok c) as X by eauto. apply engineering_accepted in X as [[ch C] K].
  destruct (engineering_built rnd o ch C K) as (ws & bs & E' & F & B & L & G). rewrite E in E'. injection E' as ->.
  split; [apply eng_cmd_wf; assumption|]. unfold command_bytes. rewrite eng_cmd_layout by exact F.
  assert (W : forall id l, zlen (write_bits id l) <= 40 + zlen l).
  { intros id l. unfold write_bits, zlen. rewrite !app_length, !Zbits_length. destruct (_ <? 64); rewrite ?app_length, !Zbits_length; cbn [length]; lia. }
  assert (P : forall a b : list bool, zlen (a ++ b) = zlen a + zlen b) by (intros; unfold zlen; rewrite app_length; lia).
  rewrite !P, flat_map_app, P. cbn [flat_map fst snd]. rewrite app_nil_r.
  pose proof (W 5 (bytes_bits bs)) as W5. assert (zlen (bytes_bits bs) = 72) as L5 by (unfold zlen in *; rewrite bytes_bits_length; lia).
  assert (zlen (tag_bits true rnd) = 16) as LT by (unfold tag_bits, act_bits, zlen; rewrite !app_length; cbn [operand_layout tag_value]; rewrite !Zbits_length; reflexivity).
  assert (zlen (if eo_forward o then neighbours_bits else []) <= 56) as LN by (destruct (eo_forward o); unfold zlen; cbn; lia).
  assert (zlen (flat_map (fun w => write_bits (fst w) (bytes_bits (snd w))) ws) <= 488) as LF.
  { destruct (factory_given o).
    - destruct G as (fb & -> & _ & L'). cbn [flat_map fst snd]. rewrite app_nil_r. pose proof (W 1 (bytes_bits fb)).
      assert (zlen (bytes_bits fb) = 448) by (unfold zlen in *; rewrite bytes_bits_length; lia). lia.
    - subst ws. cbn. lia. }
  apply Z.div_le_upper_bound; lia.
Qed.
Lemma eng_run_outcome lib s rnd o c rounds s' log st : eng_run lib s rnd o c rounds s' log st -> eng_outcome (length rounds) log st.
Proof. intros (U & R & E & L). destruct (engineering_wf _ _ _ R E) as [W B]. apply (engineering_loop lib c W B rounds s s' log st U L). Qed.
Lemma eng_run_done lib s rnd o c rounds s' log : eng_run lib s rnd o c rounds s' log EngDone ->
  exists l x, log = l ++ [x] /\ Forall (fun y => ~ confirmed y) l /\ confirmed x.
Proof.
  intro H. destruct (eng_run_outcome _ _ _ _ _ _ _ _ _ H) as (l & x & -> & A & B & _). exists l, x. repeat split; auto.
  eapply Forall_impl; [|exact A]. intros y [Y _]. exact Y.
Qed.
Lemma eng_run_raised lib s rnd o c rounds s' log e : eng_run lib s rnd o c rounds s' log (EngRaised e) ->
  e = AttributeError /\ exists l x, log = l ++ [x] /\ Forall all_tag_responses l /\ ~ all_tag_responses x.
Proof.
  intro H. destruct (eng_run_outcome _ _ _ _ _ _ _ _ _ H) as (E & l & x & -> & A & B). split; [exact E|]. exists l, x. repeat split; auto.
  eapply Forall_impl; [|exact A]. intros y [_ Y]. exact Y.
Qed.
Lemma eng_run_running lib s rnd o c rounds s' log : eng_run lib s rnd o c rounds s' log EngRunning ->
  length log = length rounds /\ Forall (fun y => ~ confirmed y) log.
Proof.
  intro H. destruct (eng_run_outcome _ _ _ _ _ _ _ _ _ H) as (E & A). split; [exact E|].
  eapply Forall_impl; [|exact A]. intros y [Y _]. exact Y.
Qed.
Lemma eng_run_sends lib s rnd o c rounds s' log st : eng_run lib s rnd o c rounds s' log st ->
  Forall (fun x => fst x = c) log
  /\ exists bytes, se_sent s' = se_sent s ++ bytes /\ received_over lib bytes (repeat (command_received c) (length log)).
Proof.
  intros (U & R & E & L). destruct (engineering_wf _ _ _ R E) as [W B].
  destruct (engineering_loop lib c W B rounds s s' log st U L) as (_ & Fc & l & Fl & Sl & Dl). split; [exact Fc|].
  exists (wire l). split; [exact Sl|]. intros q chunks Sk Bq C N. destruct (feeds_garbage lib chunks q [] l) as (es & H & _ & Z1); try assumption.
  - rewrite Sk. exact Fl.
  - constructor.
  - constructor.
  - rewrite Bq, C. reflexivity.
  - rewrite (Z1 eq_refl), Dl in H.
    replace (map (fun x : Command * list Msg => (1, MCmd (command_received (fst x)))) log) with (map (fun c0 => (1, MCmd c0)) (repeat (command_received c) (length log))) in H.
    + eexists. split; [exact H | reflexivity].
    + clear - Fc. induction Fc as [|x l X _ IH]; [reflexivity|]. cbn [map length repeat]. rewrite X, IH. reflexivity.
Qed.

(** ** change_access_profile.py *)
Lemma same_header ch : mkCH (ch_coding (cid_header ch)) (ch_class (cid_header ch)) (ch_band (cid_header ch)) = cid_header ch.
Proof. destruct (cid_header ch). reflexivity. Qed.
Lemma profile_wf o ch t : cid_from_string (po_channel o) = Ok ch -> profile_options_ok o -> ct_wf t -> ap_wf (profile_requested o ch t).
Proof.
  intros C (E & S & P & B) T. apply from_string_wf in C as [C _]. unfold ap_wf, profile_requested. cbn [ap_profiles ap_bands].
  rewrite !repeat_length. refine (conj eq_refl (conj (le_n _) (conj _ _))).
  - cbn [repeat]. repeat constructor; cbn [sp_bitmap sp_period]; try lia; apply T.
  - cbn [repeat]. repeat constructor; cbn; lia.
Qed.
Lemma profile_eq rnd o ch : cid_from_string (po_channel o) = Ok ch -> profile_options_ok o ->
  exists t, shortest_period (po_period o) t
  /\ profile_command rnd o = create_write_sys rnd (F_AccessProfile (mkAPF (po_specifier o) (Some (profile_requested o ch t)))) IF_HOST None.
Proof.
  intros C (E & S & P & B). destruct (ct_ceil_optimal _ P) as (t & Et & Wt & _ & L & M). exists t. split; [exact (conj Wt (conj L M))|].
  unfold profile_command. rewrite C. cbn [rbind]. rewrite Et. cbn [rbind period_sub_profile]. unfold mk_sub_profile, is_BYTE.
  rewrite validated_ok by ranges. cbn [rbind]. apply from_string_wf in C as [C _]. unfold mk_subband.
  rewrite validated_ok by ranges. cbn [rbind]. unfold mk_access_profile. cbn [length Nat.leb andb validated rbind]. unfold mk_apf.
  rewrite validated_ok by ranges. cbn [rbind]. rewrite same_header. reflexivity.
Qed.
Lemma ap_layout_size a : ap_wf a -> length (ap_bands a) = 8%nat -> length (ap_layout a) = (8 * 65)%nat.
Proof.
  intros (L4 & _) L8. unfold ap_layout. rewrite !app_length.
  assert (A : length (flat_map sp_layout (ap_profiles a)) = (16 * length (ap_profiles a))%nat).
  { generalize (ap_profiles a). intro l. induction l as [|x l IH]; [reflexivity|]. cbn [flat_map length]. rewrite app_length, IH.
    unfold sp_layout, ct_layout. rewrite !app_length, !Zbits_length. lia. }
  assert (B : length (flat_map sb_layout (ap_bands a)) = (56 * length (ap_bands a))%nat).
  { generalize (ap_bands a). intro l. induction l as [|x l IH]; [reflexivity|]. cbn [flat_map length]. rewrite app_length, IH.
    unfold sb_layout. rewrite !app_length, !Zbits_length. lia. }
  rewrite A, B, L4, L8. destruct (ap_header a). reflexivity.
Qed.
Lemma creates_write rnd id bs : 0 <= rnd <= 255 -> zlen bs < 16384 ->
  forall r t conf, creates r rnd t conf (act_bits false false (WriteFileData (mkData (mkOffset id (mkLength 0)) (mkLength (zlen bs)) bs))) ->
  exists c, r = Ok c /\ emits (command_ser c) (tag_bits true rnd ++ forward_bits t conf ++ write_bits id (bytes_bits bs)).
Proof.
  intros R L r t conf (c & E & _ & _ & M). exists c. split; [exact E|].
  rewrite <- (write_act_layout id bs L). exact M.
Qed.
Lemma profile_bytes rnd o ch : 0 <= rnd <= 255 -> cid_from_string (po_channel o) = Ok ch -> profile_options_ok o ->
  exists c t, profile_command rnd o = Ok c /\ shortest_period (po_period o) t
  /\ emits (command_ser c) (tag_bits true rnd ++ write_bits (32 + po_specifier o) (ap_layout (profile_requested o ch t)))
  /\ accepts ap_parse (ap_layout (profile_requested o ch t)) (profile_requested o ch t).
Proof.
  intros R C K. destruct (profile_eq rnd o ch C K) as (t & T & E). pose proof (profile_wf o ch t C K (proj1 T)) as W.
  destruct (ap_codec_iff _ W) as [Em Ac]. assert (L8 : length (ap_bands (profile_requested o ch t)) = 8%nat) by (unfold profile_requested; cbn [ap_bands]; apply repeat_length).
  destruct (bytes_of_emits _ _ 65 Em (ap_layout_size _ W L8)) as (bs & S & F & B & L). destruct K as (_ & Sp & _).
  assert (N : bs <> []) by (intros ->; cbn in L; lia).
  pose proof (create_write_sys_ok rnd (F_AccessProfile (mkAPF (po_specifier o) (Some (profile_requested o ch t)))) IF_HOST None (32 + po_specifier o) 65 bs R I eq_refl ltac:(lia) eq_refl S ltac:(unfold len_max; lia) N) as Cr.
  destruct (creates_write rnd (32 + po_specifier o) bs R ltac:(lia) _ _ _ Cr) as (c & Ec & M). exists c, t. rewrite E. rewrite B in M.
  refine (conj Ec (conj T (conj M _))). apply Ac. exact L8.
Qed.
Lemma profile_refused rnd o ch : cid_from_string (po_channel o) = Ok ch -> ~ profile_options_ok o -> profile_command rnd o = Err ValueError.
Proof.
  intros C K. unfold profile_command. rewrite C. cbn [rbind].
  destruct (Z_lt_dec (po_period o) 0) as [P0|P0]; [rewrite ct_compress_neg by exact P0; reflexivity|].
  destruct (Z_lt_dec ct_max (po_period o)) as [P1|P1]; [rewrite ct_compress_above by exact P1; reflexivity|].
  destruct (ct_ceil_optimal (po_period o) ltac:(lia)) as (t & Et & _). rewrite Et. cbn [rbind period_sub_profile].
  unfold mk_sub_profile, is_BYTE, mk_subband, mk_access_profile, mk_apf. cbn [length Nat.leb andb].
  apply from_string_wf in C as [C _]. unfold validated, in_range.
  destruct ((0 <=? po_bitmap o) && (po_bitmap o <=? 255)) eqn:B; [|reflexivity]. cbn [rbind].
  replace ((0 <=? cid_index ch) && (cid_index ch <=? 65535)) with true by lia. cbn [andb].
  destruct ((-128 <=? po_eirp o) && (po_eirp o <=? 127)) eqn:Ei; [|reflexivity]. cbn [andb Z.leb rbind].
  change ((86 ?= 255)) with Lt. cbn [CompOpp rbind Z.compare Pos.compare Pos.compare_cont andb].
  destruct ((0 <=? po_specifier o) && (po_specifier o <=? 14)) eqn:S; [|reflexivity].
  exfalso. apply K. unfold profile_options_ok. repeat split; lia.
Qed.

(** ** write_factory_settings.py *)
Definition soft (r : res (list Z)) : Prop := match r with Err e => e = ValueError | Ok _ => True end.
Lemma soft_app a b : soft a -> soft b -> soft (a +++ b).
Proof. destruct a, b; cbn; auto. Qed.
Lemma soft_yield x : soft (yield1 x).
Proof. unfold yield1, soft. destruct (_ && _); reflexivity || exact I. Qed.
Lemma soft_yields l : soft (yields l).
Proof. unfold yields. induction l as [|x l IH]; [exact I|]. cbn [map rconcat]. apply soft_app; [apply soft_yield | exact IH]. Qed.
Lemma soft_emits r l : emits r l -> soft r.
Proof. intros (bs & -> & _). exact I. Qed.
Lemma soft_pack4 x : long_ok x -> soft (pack_be 4 x).
Proof. intro H. eapply soft_emits, (emits_pack_be 4). unfold long_ok in H. ranges. Qed.
Lemma factory_soft g r p t s o b sf ga pa f : mk_factory g r p t s o b sf ga pa = Ok f -> soft (factory_ser f).
Proof.
  intro E. apply mk_factory_ok in E as (H & -> & H1 & H2 & H3 & H4 & H5 & H6 & H7 & H8 & H9). unfold factory_ser.
  cbn [fs_gain fs_rates fs_pre fs_tol fs_smoothing fs_offset fs_lora_bw fs_lora_sf fs_gaussian fs_paramp].
  repeat (apply soft_app); try apply soft_yield; try apply soft_yields.
  - induction H2 as [|x l X _ IH]; [exact I|]. cbn [map rconcat]. apply soft_app; [|exact IH]. apply soft_pack4; exact X.
  - apply soft_pack4; exact H6.
  - eapply soft_emits, (emits_pack_be 2); unfold word_ok in H9; ranges.
Qed.

Lemma settings_made o : settings_shape o ->
  match mk_factory (so_gain o) (so_rates o) (so_pre o) (so_tol o) (so_smoothing o) (so_offset o) (so_bw o) (so_sf o) (so_gaussian o) (so_paramp o) with
  | Ok f => match factory_ser f with
            | Ok _ => settings_ok o /\ fs_wf f
            | Err e => e = ValueError /\ ~ settings_ok o
            end
  | Err e => e = ValueError /\ ~ settings_ok o
  end.
Proof.
  intros (L1 & L2 & L3 & S).
  destruct (mk_factory _ _ _ _ _ _ _ _ _ _) as [f|e] eqn:E.
  - pose proof (factory_soft _ _ _ _ _ _ _ _ _ _ _ E) as So. pose proof (fs_serializable _ _ _ _ _ _ _ _ _ _ _ E L1 L2 L3) as Se.
    destruct (factory_ser f) as [l|e] eqn:F.
    + split; [|eapply fs_constructed_wf; eassumption]. destruct (proj1 Se (ex_intro _ l eq_refl)) as (G & O & T).
      apply mk_factory_ok in E as (H & -> & H1 & H2 & H3 & H4 & H5 & H6 & H7 & H8 & H9). unfold settings_ok, long_ok, word_ok in *. repeat split; try assumption; lia.
    + split; [exact So|]. intros (K1 & K2 & K3 & K4 & K5 & K6 & _). destruct (proj2 Se) as [l X]; [split; [lia | split; [lia | exact K4]] | congruence].
  - split.
    + unfold mk_factory, smooth in E. destruct (so_smoothing o <=? 0); cbn [rbind] in E; [congruence|]. unfold validated in E.
      match type of E with (if ?c then _ else _) = _ => destruct c end; congruence.
    + intros (K1 & K2 & K3 & K4 & K5 & K6 & K7 & K8 & K9 & K10).
      unfold mk_factory, smooth in E. replace (so_smoothing o <=? 0) with false in E by lia. cbn [rbind] in E.
      rewrite validated_ok in E; [discriminate|].
      assert (1 <= Z.log2_up (so_smoothing o) <= 21) as B.
      { split; [change 1 with (Z.log2_up 2); apply Z.log2_up_le_mono; lia|]. change 21 with (Z.log2_up 2097152). apply Z.log2_up_le_mono. lia. }
      rewrite !forallb_range by assumption. unfold in_range, byte_ok, word_ok, long_ok in *. lia.
Qed.
Lemma settings_refused rnd o : settings_shape o -> ~ settings_ok o -> settings_command rnd o = Err ValueError.
Proof.
  intros Sh K. pose proof (settings_made o Sh) as M. unfold settings_command.
  destruct (mk_factory _ _ _ _ _ _ _ _ _ _) as [f|e]; cbn [rbind]; [|destruct M as [-> _]; reflexivity].
  destruct (factory_ser f) as [l|e]; cbn [rbind]; [tauto|]. destruct M as [-> _]. reflexivity.
Qed.
Lemma settings_bytes rnd o : 0 <= rnd <= 255 -> settings_shape o -> settings_ok o ->
  exists c n, settings_command rnd o = Ok c /\ bits_needed (so_smoothing o) n
  /\ emits (command_ser c) (tag_bits true rnd ++ (if so_forward o then neighbours_bits else [])
                            ++ write_bits 1 (fs_layout (settings_requested o n))).
Proof.
  intros R Sh K. pose proof (settings_made o Sh) as M. unfold settings_command.
  destruct (mk_factory _ _ _ _ _ _ _ _ _ _) as [f|e] eqn:E; cbn [rbind]; [|tauto].
  destruct (factory_ser f) as [l|e] eqn:F; cbn [rbind]; [|tauto]. destruct M as [_ W].
  apply fs_stores in E as (_ & n & B & ->). destruct (fs_bytes _ W) as (bs & S & Fb & Bb & L). assert (l = bs) as -> by congruence.
  assert (N : bs <> []) by (intros ->; cbn in L; lia).
  fold (settings_requested o n) in Bb.
  destruct (so_forward o).
  - rewrite broadcast_eq. cbn [rbind].
    assert (CO : conf_ok IF_D7ASP (Some (CfgD7 neighbours_conf))) by (split; [exact neighbours_wf | discriminate]).
    pose proof (create_write_ok rnd 1 bs 0 IF_D7ASP _ R CO ltac:(lia) ltac:(unfold len_max; lia) Fb ltac:(unfold len_max; lia) N) as Cr.
    destruct (creates_write rnd 1 bs R ltac:(lia) _ _ _ Cr) as (c & Ec & Em). exists c, n. refine (conj Ec (conj B _)). rewrite Bb in Em. exact Em.
  - pose proof (create_write_ok rnd 1 bs 0 IF_HOST None R I ltac:(lia) ltac:(unfold len_max; lia) Fb ltac:(unfold len_max; lia) N) as Cr.
    destruct (creates_write rnd 1 bs R ltac:(lia) _ _ _ Cr) as (c & Ec & Em). exists c, n. refine (conj Ec (conj B _)). rewrite Bb in Em. exact Em.
Qed.
Lemma interface_configuration_fails rnd id : interface_configuration_command rnd id = Err ValueError.
Proof. reflexivity. Qed.

From Verif Require Import LBits LBytes LAction LCommand LTraffic LSend LSerialProps LModem LConnect SOta.

(** ** The command of a round *)
Definition ota_cmd (rnd offset : Z) (bytes : list Z) : Command :=
  mkCommand [mkAction (Regular false false) (WriteFileData (mkData (mkOffset 200 (mkLength offset)) (mkLength (zlen bytes)) bytes))]
            None true (Some rnd) true false None.
Lemma ota_command_eq rnd offset bytes : Forall is_byte bytes -> zlen bytes <= 239 ->
  ota_command rnd offset bytes
  = if (0 <=? offset) && (offset <=? 1073741823) then Ok (ota_cmd rnd offset bytes) else Err ValueError.
Proof.
  intros F L. unfold ota_command, mk_length, mk_offset, mk_data, in_range, validated. cbn [mk_command command_loop rbind c_tag negb validated].
  destruct ((0 <=? offset) && (offset <=? 1073741823)); [|reflexivity]. cbn [rbind is_BYTE in_range].
  unfold mk_length, in_range. replace ((0 <=? zlen bytes) && (zlen bytes <=? 1073741823)) with true
    by (unfold zlen in *; lia). cbn [validated rbind].
  assert (forallb is_BYTE bytes = true) as ->.
  { apply forallb_forall. intros x I. rewrite Forall_forall in F. specialize (F x I). unfold is_byte in F. unfold is_BYTE, in_range. lia. }
  reflexivity.
Qed.
Lemma ota_cmd_wf rnd offset bytes : 0 <= rnd <= 255 -> 0 <= offset <= len_max -> Forall is_byte bytes -> zlen bytes <= 239 ->
  bytes <> [] -> command_wf (ota_cmd rnd offset bytes).
Proof.
  intros R O F L N. unfold command_wf, ota_cmd. cbn [c_actions c_status c_generate c_tag].
  refine (conj _ (conj eq_refl (conj eq_refl _))).
  - constructor; [|constructor]. unfold action_wf, op_wf, data_wf, off_wf, len_wf. cbn [a_op a_kind d_offset d_length d_data off_id off_offset len_value sendable].
    unfold len_max in *. repeat split; try lia; auto.
  - intros _. exists rnd. auto.
Qed.
Lemma len_layout_size v : (length (len_layout (mkLength v)) <= 32)%nat.
Proof. unfold len_layout, len_form. rewrite app_length, !Zbits_length. cbn [len_value]. unfold len_k. repeat destruct (_ <? _); cbn; lia. Qed.
Lemma len_layout_small v : v <= 239 -> (length (len_layout (mkLength v)) <= 16)%nat.
Proof.
  intro H. unfold len_layout, len_form. rewrite app_length, !Zbits_length. cbn [len_value]. unfold len_k.
  change (2 ^ 6) with 64. change (2 ^ 14) with 16384. destruct (v <? 64); [cbn; lia|]. destruct (v <? 16384) eqn:E; [cbn; lia|].
  exfalso. clear -E H. apply Z.ltb_ge in E. lia.
Qed.
Lemma ota_cmd_size rnd offset bytes : zlen bytes <= 239 -> command_bytes (ota_cmd rnd offset bytes) <= 249.
Proof.
  intro L. unfold command_bytes, command_layout, ota_cmd, tag_bits, action_layout, act_bits.
  cbn [c_generate c_tag c_respond c_actions flat_map a_kind a_op operand_layout tag_value].
  unfold data_layout, off_layout. cbn [d_offset d_length d_data off_id off_offset].
  pose proof (len_layout_size offset). pose proof (len_layout_small (zlen bytes) L).
  unfold zlen in *. repeat (rewrite ?app_length, ?Zbits_length, ?bytes_bits_length; cbn [length]). lia.
Qed.

(** ** What the device can change *)
Lemma set_buf_up p b : sp_up (set_buf p b) = sp_up p.
Proof. reflexivity. Qed.
Lemma header_up p s : sp_up (fst (parse_header p s)) = sp_up p.
Proof.
  unfold parse_header. destruct (header_fields _ s) as [[[[[[[c t] l] c1] c2] pl] s']|e]; [|reflexivity].
  destruct (calculate_crc pl). apply bump_up.
Qed.
Lemma parse_one_up lib fuel : forall p es, sp_up (fst (parse_one fuel lib p es)) = sp_up p.
Proof.
  induction fuel as [|f IH]; intros p es; [reflexivity|]. cbn [parse_one]. destruct (sp_buf p) as [|b r] eqn:B; [reflexivity|].
  pose proof (header_up p (stream_of (b :: r))) as H. destruct (parse_header p (stream_of (b :: r))) as [p' hdr]. cbn [fst] in H.
  destruct (match hdr with Ok _ => _ | Err e => Err e end) as [[[mt m] n]|e]; [exact H|].
  destruct (is_read_error lib e); [exact H|]. destruct (no_args e); [exact H|].
  destruct (skip_bad (sp_buf p')) as [b' n]. rewrite IH. exact H.
Qed.
Lemma parse_buffer_up lib fuel : forall p ms n es, sp_up (fst (parse_buffer fuel lib p ms n es)) = sp_up p.
Proof.
  induction fuel as [|f IH]; intros p ms n es; [reflexivity|]. cbn [parse_buffer].
  pose proof (parse_one_up lib (S (length (sp_buf p))) p []) as H. destruct (parse_one _ lib p []) as [p' r]. cbn [fst] in H.
  destruct r as [[[[m|] k] errs]|e]; try exact H. rewrite IH. exact H.
Qed.
Lemma sparse_up lib p c : sp_up (fst (sparse lib p c)) = sp_up p.
Proof. unfold sparse. rewrite parse_buffer_up. reflexivity. Qed.
Lemma device_reader lib s e : exists msgs,
  r_modem (se_reader (device lib s e)) = fold_left dispatch msgs (r_modem (se_reader s))
  /\ sp_up (r_parser (se_reader (device lib s e))) = sp_up (r_parser (se_reader s)).
Proof.
  destruct s as [r u f t]. destruct e as [c|]; cbn [device se_reader r_modem r_parser].
  - unfold reader_chunk. destruct (r_alive r); [|exists []; auto]. destruct c as [|b c]; [exists []; auto|].
    pose proof (sparse_up lib (r_parser r) (b :: c)) as H. destruct (sparse lib (r_parser r) (b :: c)) as [p [x|e]]; cbn [fst] in H.
    + exists (pr_msgs x). auto.
    + exists []. auto.
  - exists []. auto.
Qed.
Lemma devices_modem lib es : forall s, exists msgs,
  r_modem (se_reader (devices lib s es)) = fold_left dispatch msgs (r_modem (se_reader s))
  /\ sp_up (r_parser (se_reader (devices lib s es))) = sp_up (r_parser (se_reader s)).
Proof.
  induction es as [|e es IH]; intro s; [exists []; auto|].
  destruct (device_reader lib s e) as (m1 & A1 & A2). destruct (IH (device lib s e)) as (m2 & B1 & B2).
  exists (m1 ++ m2). unfold devices in *. cbn [fold_left]. rewrite B1, B2, A1, A2, fold_left_app. auto.
Qed.

(** ** One round *)
Lemma round_ok lib s c es : usable_session s -> command_wf c -> command_bytes c <= 255 ->
  exists bs s1, command_ser c = Ok bs /\ is_payload bs /\ execute s c 10 = (s1, Ok tt)
  /\ usable_session (devices lib s1 es)
  /\ se_sent (devices lib s1 es) = se_sent s ++ frame (sp_up (r_parser (se_reader s))) 1 bs
  /\ sp_up (r_parser (se_reader (devices lib s1 es))) = counter_after (sp_up (r_parser (se_reader s)))
  /\ forall x, In x (execute_result (devices lib s1 es)) -> answers (c_tag c) x.
Proof.
  intros [U K] W L. destruct (transmits_command c W L) as (bs & E & P & _). exists bs. eexists.
  split; [exact E|]. split; [exact P|]. split; [apply (execute_ok s c bs 10 U E P)|].
  match goal with |- usable_session (devices lib ?s1 es) /\ _ => destruct (devices_modem lib es s1) as (msgs & M & Up); destruct (devices_keep lib es s1) as (_ & _ & Sn) end.
  cbn [se_reader r_modem r_parser with_up sp_up se_sent] in *.
  destruct (dispatches_setup msgs (exec_start (r_modem (se_reader s)) (c_tag c) 10)) as (Sk & _).
  split; [|split; [exact Sn|split; [exact Up|]]].
  - split; [rewrite Up; apply after_byte; exact U|]. rewrite M, Sk. exact K.
  - intros x I. unfold execute_result in I. rewrite M in I. apply sync_tags in I; [apply I | exact K | lia].
Qed.

(** ** The node's file *)
Lemma write_next off (pre old data : list Z) : zlen pre = off ->
  write_at off data (pre ++ old) = pre ++ data ++ skipn (length data) old.
Proof.
  intros <-. unfold write_at, zlen. rewrite Nat2Z.id, firstn_app, Nat.sub_diag, firstn_all, app_nil_r.
  rewrite skipn_app. rewrite skipn_all2 by lia. cbn [app]. do 3 f_equal. lia.
Qed.
Lemma received_ota rnd off bytes : c_actions (command_received (ota_cmd rnd off bytes)) = c_actions (ota_cmd rnd off bytes).
Proof. reflexivity. Qed.
Lemma node_ota rnd off bytes file :
  node_receives 200 file (command_received (ota_cmd rnd off bytes)) = write_at off bytes file.
Proof. reflexivity. Qed.

Lemma firstn_plus {A} a b (l : list A) : firstn (a + b) l = firstn a l ++ firstn b (skipn a l).
Proof. revert l. induction a as [|a IH]; intro l; [reflexivity|]. destruct l; cbn; [rewrite firstn_nil; reflexivity|]. f_equal. apply IH. Qed.

Lemma skipn_plus {A} a b (l : list A) : skipn a (skipn b l) = skipn (b + a) l.
Proof. revert l. induction b as [|b IH]; intro l; [reflexivity|]. destruct l; cbn; [apply skipn_nil|]. apply IH. Qed.

(** ** The loop *)
Definition piece (n : nat) (rest : list Z) : nat := Nat.min (239 * n) (length rest).
Definition outcome (rest : list Z) (off : Z) (nrounds : nat) (log : list (Command * list Msg)) (st : OtaState) : Prop :=
  match st with
  | OtaDone => Forall confirmed log /\ (length rest <= 239 * length log)%nat
  | OtaFailed => exists l x, log = l ++ [x] /\ Forall confirmed l /\ ~ confirmed x
  | OtaRaised e => e = ValueError /\ Forall confirmed log /\ len_max < off + 239 * zlen log /\ (239 * length log < length rest)%nat
  | OtaRunning => Forall confirmed log /\ length log = nrounds /\ (239 * length log < length rest)%nat
  end.
Lemma good_confirmed c s : (forall x, In x (execute_result s) -> answers (c_tag c) x) ->
  (existsb answer_good (execute_result s) = true <-> confirmed (c, execute_result s)).
Proof.
  intro A. rewrite existsb_exists. unfold confirmed. cbn [fst snd]. split.
  - intros (x & I & G). pose proof (A x I) as T. destruct x as [?|?|a]; try discriminate. exists a.
    cbn in G. apply andb_true_iff in G. destruct G as [G1 G2]. split; [exact I|]. split; [destruct T as (y & Y1 & Y2); congruence|]. split; [exact G1|].
    destruct (c_error a) as [[|]|]; congruence.
  - intros (a & I & _ & C & E). exists (MCmd a). split; [exact I|]. cbn. rewrite C. destruct (c_error a) as [[|]|]; first [reflexivity | exfalso; apply E; reflexivity].
Qed.
Lemma ota_spec lib rounds : forall s rest off s' log st, usable_session s -> Forall is_byte rest -> 0 <= off ->
  Forall (fun r => 0 <= fst r <= 255) rounds -> ota lib s rest off rounds = (s', log, st) ->
  usable_session s' /\ outcome rest off (length rounds) log st
  /\ (exists l, Forall (sent_ok false) l /\ se_sent s' = se_sent s ++ wire l
      /\ delivered l = map (fun x => (1, MCmd (command_received (fst x)))) log)
  /\ (forall pre old, zlen pre = off ->
      fold_left (node_receives 200) (map (fun x => command_received (fst x)) log) (pre ++ old)
      = pre ++ firstn (239 * length log) rest ++ skipn (piece (length log) rest) old).
Proof.
  induction rounds as [|[rnd es] rounds IH]; intros s rest off s' log st U F O R E.
  - destruct rest as [|b rest]; cbn [ota] in E; injection E as <- <- <-.
    + split; [exact U|]. split; [split; [constructor|cbn; lia]|]. split; [exists []; rewrite app_nil_r; repeat split; constructor|reflexivity].
    + split; [exact U|]. split; [split; [constructor|split; [reflexivity|cbn; lia]]|].
      split; [exists []; rewrite app_nil_r; repeat split; constructor|reflexivity].
  - inversion R as [|x y Rt Rr]; subst x y. cbn [fst] in Rt. destruct rest as [|b rest0].
    { cbn [ota] in E. injection E as <- <- <-.
      split; [exact U|]. split; [split; [constructor|cbn; lia]|]. split; [exists []; rewrite app_nil_r; repeat split; constructor|reflexivity]. }
    set (rest := b :: rest0) in *.
    assert (E' : match ota_command rnd off (firstn 239 rest) with
      | Err e => (s, [], OtaRaised e)
      | Ok c => match execute s c 10 with
          | (s, Err e) => (s, [], OtaRaised e)
          | (s, Ok _) =>
              let s := devices lib s es in
              if existsb answer_good (execute_result s)
              then match ota lib s (skipn 239 rest) (off + 239) rounds with
                   | (s', log, st) => (s', (c, execute_result s) :: log, st)
                   end
              else (s, [(c, execute_result s)], OtaFailed)
          end end = (s', log, st)) by exact E. clear E.
    assert (Fc : Forall is_byte (firstn 239 rest)) by (rewrite <- (firstn_skipn 239 rest) in F; apply Forall_app in F; apply F).
    assert (Fr : Forall is_byte (skipn 239 rest)) by (rewrite <- (firstn_skipn 239 rest) in F; apply Forall_app in F; apply F).
    assert (Lc : zlen (firstn 239 rest) <= 239) by (unfold zlen; rewrite firstn_length; lia).
    assert (Nc : firstn 239 rest <> []) by (unfold rest; discriminate).
    assert (Nr : (0 < length rest)%nat) by (unfold rest; cbn; lia).
    rewrite ota_command_eq in E' by assumption.
    destruct ((0 <=? off) && (off <=? 1073741823)) eqn:Of.
    2:{ injection E' as <- <- <-. split; [exact U|]. split.
        - split; [reflexivity|]. split; [constructor|]. unfold len_max, zlen. cbn [length]. lia.
        - split; [exists []; rewrite app_nil_r; repeat split; constructor|reflexivity]. }
    set (c := ota_cmd rnd off (firstn 239 rest)) in *.
    assert (Wc : command_wf c) by (apply ota_cmd_wf; auto; unfold len_max; lia).
    assert (Bc : command_bytes c <= 255) by (pose proof (ota_cmd_size rnd off (firstn 239 rest) Lc); unfold c; lia).
    destruct (round_ok lib s c es U Wc Bc) as (bs & s1 & Eb & Pb & Ex & U1 & Sn & _ & Tg).
    rewrite Ex in E'. cbv zeta in E'.
    assert (SO : sent_ok false (mkSent (sp_up (r_parser (se_reader s))) 1 bs (MCmd (command_received c)))).
    { destruct (transmits_command c Wc Bc) as (bs' & Eb' & _ & Ca). assert (bs' = bs) as -> by congruence.
      unfold sent_ok. cbn [s_counter s_type s_payload s_msg]. refine (conj (proj1 U) (conj _ (conj Pb Ca))). unfold is_byte. lia. }
    pose proof (good_confirmed c _ Tg) as G.
    destruct (existsb answer_good (execute_result (devices lib s1 es))) eqn:Go.
    + destruct (ota lib (devices lib s1 es) (skipn 239 rest) (off + 239) rounds) as [[s2 log2] st2] eqn:E2.
      injection E' as <- <- <-. assert (Ho : 0 <= off + 239) by lia. destruct (IH _ _ _ _ _ _ U1 Fr Ho Rr E2) as (U2 & Out & (l & Fl & Sl & Dl) & Nd).
      assert (Cf : confirmed (c, execute_result (devices lib s1 es))) by (apply G; reflexivity).
      split; [exact U2|]. split; [|split].
      * unfold outcome in *. pose proof (skipn_length 239 rest) as SL. unfold zlen in *. destruct st2; cbn [length].
        -- destruct Out as [O1 O2]. split; [constructor; assumption|lia].
        -- destruct Out as (l0 & x & -> & O1 & O2). exists ((c, execute_result (devices lib s1 es)) :: l0), x.
           split; [reflexivity|]. split; [constructor; assumption|exact O2].
        -- destruct Out as (O1 & O2 & O3 & O4). split; [exact O1|]. split; [constructor; assumption|]. lia.
        -- destruct Out as (O1 & O2 & O3). split; [constructor; assumption|]. lia.
      * exists (mkSent (sp_up (r_parser (se_reader s))) 1 bs (MCmd (command_received c)) :: l).
        split; [constructor; assumption|]. split.
        -- rewrite Sl, Sn, <- app_assoc. reflexivity.
        -- cbn [delivered map s_type s_msg fst]. f_equal. exact Dl.
      * intros pre old Lp. cbn [map fold_left fst]. unfold c at 1. rewrite node_ota, write_next by exact Lp.
        destruct (le_lt_dec (length rest) 239) as [Le|Gt].
        -- assert (skipn 239 rest = []) as Z0 by (apply skipn_all2; exact Le). rewrite Z0 in E2.
           assert (log2 = []) as -> by (destruct rounds as [|[? ?] ?]; cbn [ota] in E2; injection E2 as _ <- _; reflexivity).
           cbn [map fold_left length]. unfold piece. rewrite Nat.mul_1_r, firstn_length. reflexivity.
        -- rewrite app_assoc, Nd.
           ++ rewrite <- !app_assoc. f_equal. cbn [length].
              replace (239 * S (length log2))%nat with (239 + 239 * length log2)%nat by lia.
              rewrite firstn_plus, <- app_assoc. f_equal. f_equal.
              rewrite skipn_plus. f_equal. unfold piece. rewrite firstn_length, skipn_length. lia.
           ++ unfold zlen in *. rewrite app_length, firstn_length. lia.
    + injection E' as <- <- <-. split; [exact U1|]. split; [|split].
      * exists [], (c, execute_result (devices lib s1 es)). split; [reflexivity|]. split; [constructor|].
        intro Cf. apply G in Cf. discriminate.
      * exists [mkSent (sp_up (r_parser (se_reader s))) 1 bs (MCmd (command_received c))].
        split; [constructor; [exact SO|constructor]|]. split; [|reflexivity].
        rewrite Sn. cbn [wire flat_map]. rewrite app_nil_r. reflexivity.
      * intros pre old Lp. cbn [map fold_left fst length]. unfold c at 1. rewrite node_ota, write_next by exact Lp.
        unfold piece. rewrite Nat.mul_1_r. do 3 f_equal. apply firstn_length.
Qed.
Lemma ota_node lib s file rounds s' log st : ota_run lib s file rounds s' log st ->
  exists bytes, se_sent s' = se_sent s ++ bytes /\ received_over lib bytes (commands_of log)
  /\ forall old, fold_left (node_receives 200) (commands_of log) old
     = firstn (239 * length log) file ++ skipn (Nat.min (239 * length log) (length file)) old.
Proof.
  intros (U & F & R & E). destruct (ota_spec lib rounds s file 0 s' log st U F ltac:(lia) R E) as (_ & _ & (l & Fl & Sl & Dl) & Nd).
  exists (wire l). split; [exact Sl|]. split.
  - intros q chunks Sk B C N. destruct (feeds_garbage lib chunks q [] l) as (es & H & _ & Z1); try assumption.
    + rewrite Sk. exact Fl.
    + constructor.
    + constructor.
    + rewrite B, C. reflexivity.
    + rewrite (Z1 eq_refl), Dl in H. unfold commands_of. rewrite map_map. eexists. split; [exact H | reflexivity].
  - intro old. exact (Nd [] old eq_refl).
Qed.
Lemma ota_outcome lib s file rounds s' log st : ota_run lib s file rounds s' log st -> outcome file 0 (length rounds) log st.
Proof. intros (U & F & R & E). apply (ota_spec lib rounds s file 0 s' log st U F ltac:(lia) R E). Qed.
Lemma ota_done lib s file rounds s' log : ota_run lib s file rounds s' log OtaDone ->
  Forall confirmed log
  /\ forall old, fold_left (node_receives 200) (commands_of log) old = file ++ skipn (length file) old.
Proof.
  intro H. destruct (ota_outcome _ _ _ _ _ _ _ H) as [A B]. split; [exact A|]. intro old.
  destruct (ota_node _ _ _ _ _ _ _ H) as (_ & _ & _ & K). rewrite K, firstn_all2 by lia. do 2 f_equal. lia.
Qed.
Lemma ota_failed lib s file rounds s' log : ota_run lib s file rounds s' log OtaFailed ->
  exists l x, log = l ++ [x] /\ Forall confirmed l /\ ~ confirmed x.
Proof. intro H. exact (ota_outcome _ _ _ _ _ _ _ H). Qed.
Lemma ota_raised lib s file rounds s' log e : ota_run lib s file rounds s' log (OtaRaised e) ->
  e = ValueError /\ Forall confirmed log /\ len_max < zlen file.
Proof.
  intro H. destruct (ota_outcome _ _ _ _ _ _ _ H) as (A & B & C & D). split; [exact A|]. split; [exact B|].
  unfold zlen in *. lia.
Qed.
Lemma ota_running lib s file rounds s' log : ota_run lib s file rounds s' log OtaRunning ->
  Forall confirmed log /\ length log = length rounds /\ (239 * length rounds < length file)%nat.
Proof. intro H. destruct (ota_outcome _ _ _ _ _ _ _ H) as (A & B & C). rewrite <- B. auto. Qed.
(** the offset of the last round must fit *)
Lemma ota_big_file lib s file rounds s' log st : ota_run lib s file rounds s' log st -> len_max + 239 < zlen file ->
  st <> OtaDone.
Proof.
  intros (U & F & R & E) L ->. revert s file log U F E L R.
  cut (forall rounds s rest off s' log, usable_session s -> Forall is_byte rest -> 0 <= off ->
    Forall (fun r => 0 <= fst r <= 255) rounds -> ota lib s rest off rounds = (s', log, OtaDone) -> rest <> [] ->
    off + zlen rest <= len_max + 239).
  { intros K s file log U F E L R. assert (N : file <> []) by (intros ->; unfold zlen, len_max in L; cbn in L; lia).
    specialize (K rounds s file 0 s' log U F ltac:(lia) R E N). lia. }
  clear. induction rounds as [|[rnd es] rounds IH]; intros s rest off s' log U F O R E N;
    (destruct rest as [|b rest0]; [congruence|]); [discriminate|].
  set (rest := b :: rest0) in *. inversion R as [|x y Rt Rr]; subst x y. cbn [fst] in Rt.
  assert (Fc : Forall is_byte (firstn 239 rest)) by (rewrite <- (firstn_skipn 239 rest) in F; apply Forall_app in F; apply F).
  assert (Fr : Forall is_byte (skipn 239 rest)) by (rewrite <- (firstn_skipn 239 rest) in F; apply Forall_app in F; apply F).
  assert (Lc : zlen (firstn 239 rest) <= 239) by (unfold zlen; rewrite firstn_length; lia).
  assert (Nc : firstn 239 rest <> []) by (unfold rest; discriminate).
  unfold rest in E. cbn [ota] in E. fold rest in E. rewrite ota_command_eq in E by assumption.
  destruct ((0 <=? off) && (off <=? 1073741823)) eqn:Of; [|discriminate].
  set (c := ota_cmd rnd off (firstn 239 rest)) in *.
  assert (Wc : command_wf c) by (apply ota_cmd_wf; auto; unfold len_max; lia).
  assert (Bc : command_bytes c <= 255) by (pose proof (ota_cmd_size rnd off (firstn 239 rest) Lc); unfold c; lia).
  destruct (round_ok lib s c es U Wc Bc) as (bs & s1 & _ & _ & Ex & U1 & _).
  rewrite Ex in E. destruct (existsb answer_good _); [|discriminate].
  destruct (ota lib _ (skipn 239 rest) (off + 239) rounds) as [[s2 log2] st2] eqn:E2. injection E as <- <- ->.
  pose proof (skipn_length 239 rest) as SL. unfold len_max, zlen in *.
  destruct (skipn 239 rest) as [|b' r'] eqn:Sk.
  - cbn [length] in SL. lia.
  - rewrite <- Sk in E2, Fr. assert (Ho : 0 <= off + 239) by lia.
    specialize (IH _ _ _ _ _ U1 Fr Ho Rr E2). rewrite Sk in IH. specialize (IH ltac:(discriminate)). cbn [length] in *. lia.
Qed.

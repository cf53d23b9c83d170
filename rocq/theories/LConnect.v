From Verif Require Import LBits LBytes LGood LTypes LAlp LAction LCommand LReser LTraffic LSend LLink LChunk LSerialProps LFiles SModem SConnect LModem.

(** ** The reader thread *)
Lemma device_dead lib s e : alive s = false -> device lib s e = s.
Proof.
  destruct s as [[p m a] u f t]. unfold alive. cbn. intros ->. destruct e; reflexivity.
Qed.
Lemma devices_dead lib es : forall s, alive s = false -> devices lib s es = s.
Proof.
  induction es as [|e es IH]; intros s H; [reflexivity|]. unfold devices in *. cbn [fold_left].
  rewrite device_dead by exact H. apply IH. exact H.
Qed.
Lemma execute_alive s c t : alive (fst (execute s c t)) = alive s.
Proof.
  unfold execute, alive. destruct (build_serial_frame _ _) as [p [b|e]]; reflexivity.
Qed.
Lemma build_keeps p a : sp_buf (fst (build_serial_frame p a)) = sp_buf p.
Proof. unfold build_serial_frame. destruct a as [b|e]; [|reflexivity]. repeat (match goal with |- context [if ?c then _ else _] => destruct c | |- context [match ?c with _ => _ end] => destruct c end; try reflexivity). Qed.
Lemma execute_inbox s c t (p : Place) : p <> PResult -> session_inbox p (fst (execute s c t)) = session_inbox p s.
Proof.
  unfold execute, session_inbox. intro N. destruct (build_serial_frame _ _) as [q [b|e]]; [|reflexivity].
  cbn [fst se_reader r_modem]. apply command_leaves. exact N.
Qed.
Lemma dead_stays lib l : forall s, alive s = false ->
  alive (acts lib s l) = false /\ forall p, p <> PResult -> session_inbox p (acts lib s l) = session_inbox p s.
Proof.
  induction l as [|a l IH]; intros s H; [auto|]. unfold acts in *. cbn [fold_left].
  assert (K : alive (act lib s a) = false /\ forall p, p <> PResult -> session_inbox p (act lib s a) = session_inbox p s).
  { destruct a as [e|c t]; cbn [act].
    - rewrite device_dead by exact H. auto.
    - rewrite execute_alive. split; [exact H|]. intros p N. apply execute_inbox. exact N. }
  destruct K as [K1 K2]. destruct (IH _ K1) as [I1 I2]. split; [exact I1|]. intros p N.
  rewrite I2, K2 by exact N. reflexivity.
Qed.
Lemma dead_commands lib s c t es s' : alive s = false -> execute s c t = (s', Ok tt) ->
  execute_result (devices lib s' es) = [].
Proof.
  intros H E. assert (A : alive s' = false) by (pose proof (execute_alive s c t) as K; rewrite E in K; cbn in K; congruence).
  rewrite devices_dead by exact A. unfold execute in E. destruct (build_serial_frame _ _) as [p [b|e]]; [|discriminate].
  injection E as <-. reflexivity.
Qed.
Lemma exception_kills lib s es rest : 
  devices lib s (es ++ DException :: rest)
  = let r := se_reader (devices lib s es) in
    mkSession (mkReader (r_parser r) (r_modem r) false) (se_uid (devices lib s es)) (se_fw (devices lib s es)) (se_sent (devices lib s es)).
Proof.
  unfold devices at 1. rewrite fold_left_app. cbn [fold_left]. fold (devices lib s es).
  fold (devices lib (device lib (devices lib s es) DException) rest). rewrite devices_dead; [|reflexivity]. reflexivity.
Qed.
Lemma device_bytes lib p m u f t c : c <> [] ->
  device lib (mkSession (mkReader p m true) u f t) (DBytes c)
  = mkSession (match sparse lib p c with
               | (p, Ok r) => mkReader p (fold_left dispatch (pr_msgs r) m) true
               | (p, Err _) => mkReader p m false
               end) u f t.
Proof. destruct c as [|b c]; [congruence|]. intros _. cbn. destruct (sparse lib p (b :: c)) as [q [r|e]]; reflexivity. Qed.
Lemma survives_iff lib es : forall s, alive s = true ->
  (alive (devices lib s es) = true <-> survives lib (r_parser (se_reader s)) es).
Proof.
  induction es as [|e es IH]; intros [[p m a] u f t] H; unfold alive in H; cbn [se_reader r_alive r_parser] in *; subst a.
  - split; [|reflexivity]. intros _. split; [intros []|]. exists p, [], []. constructor.
  - unfold devices in *. cbn [fold_left]. destruct e as [c|].
    + destruct c as [|b c].
      * change (device lib (mkSession (mkReader p m true) u f t) (DBytes [])) with (mkSession (mkReader p m true) u f t).
        rewrite IH by reflexivity. cbn [se_reader r_parser]. unfold survives. cbn [In chunks_of flat_map app].
        split; intros [N K]; (split; [|exact K]); [intros [B|B]; [discriminate | auto] | intro B; apply N; right; exact B].
      * rewrite device_bytes by discriminate. destruct (sparse lib p (b :: c)) as [q [r|e]] eqn:E.
        -- rewrite IH by reflexivity. cbn [se_reader r_parser]. unfold survives. cbn [In chunks_of flat_map app].
           fold (chunks_of es). split; intros [N (p' & ms & errs & K)]; split.
           ++ intros [B|B]; [discriminate|auto].
           ++ eexists _, _, _. econstructor; eauto.
           ++ auto.
           ++ inversion K; subst. rewrite E in *.
              match goal with X : (_, Ok _) = (_, Ok _) |- _ => injection X as <- <- end. eauto.
        -- fold (devices lib (mkSession (mkReader q m false) u f t) es). rewrite devices_dead by reflexivity.
           unfold alive. cbn [se_reader r_alive]. split; [discriminate|].
           intros [_ (p' & ms & errs & K)]. cbn [chunks_of flat_map app] in K. inversion K; subst. congruence.
    + fold (devices lib (device lib (mkSession (mkReader p m true) u f t) DException) es). rewrite devices_dead by reflexivity.
      split; [discriminate|]. intros [N _]. exfalso. apply N. left. reflexivity.
Qed.
Lemma devices_keep lib es : forall s, se_uid (devices lib s es) = se_uid s /\ se_fw (devices lib s es) = se_fw s
  /\ se_sent (devices lib s es) = se_sent s.
Proof.
  induction es as [|e es IH]; intro s; [auto|]. unfold devices in *. cbn [fold_left].
  destruct (IH (device lib s e)) as (A & B & C). rewrite A, B, C. auto.
Qed.
Lemma devices_reader lib chunks : forall s,
  se_reader (devices lib s (map DBytes chunks)) = read_chunks lib (se_reader s) chunks.
Proof.
  induction chunks as [|c cs IH]; intro s; [reflexivity|]. unfold devices, read_chunks in *. cbn [map fold_left].
  rewrite IH. reflexivity.
Qed.

(** ** connect: the loop over the actions *)
Lemma big_endian_app a b : big_endian (a ++ [b]) = 256 * big_endian a + b.
Proof. unfold big_endian. rewrite fold_left_app. reflexivity. Qed.
Lemma bits_val_big_endian l : Forall is_byte l -> bits_val (bytes_bits l) = big_endian l.
Proof.
  induction l as [|b l IH] using rev_ind; intro F; [reflexivity|].
  apply Forall_app in F. destruct F as [F1 F2]. inversion F2 as [|x y B _]; subst.
  rewrite big_endian_app, bytes_bits_app, bits_val_app, IH by exact F1.
  cbn [bytes_bits flat_map]. rewrite app_nil_r. rewrite bits_val_Zbits_small by (change (2 ^ Z.of_nat 8) with 256; unfold is_byte in B; lia).
  unfold zlen. rewrite Zbits_length. change (2 ^ Z.of_nat 8) with 256. lia.
Qed.

Definition file_step (st : option Z * option FirmwareVersionFile) (f : Z * list Z) :=
  let (i, d) := f in
  if i =? 0 then
    if Nat.eqb (length d) 8 then ((Some (bits_val (bytes_bits d)), snd st), None) else (st, Some StructError)
  else if i =? 2 then
    match fw_parse (stream_of d) with Ok (v, _) => ((fst st, Some v), None) | Err e => (st, Some e) end
  else (st, None).
Fixpoint file_steps (st : option Z * option FirmwareVersionFile) (l : list (Z * list Z)) :=
  match l with
  | [] => (st, None)
  | f :: r => match file_step st f with
              | (st, None) => file_steps st r
              | (st, Some e) => (st, Some e)
              end
  end.
Lemma file_steps_app a b : forall st, file_steps st (a ++ b)
  = match file_steps st a with (st, None) => file_steps st b | x => x end.
Proof.
  induction a as [|f a IH]; intro st; [reflexivity|]. cbn [app file_steps].
  destruct (file_step st f) as [st1 [e|]]; [reflexivity | apply IH].
Qed.
Lemma actions_files l : forall st, connect_actions st l
  = file_steps st (flat_map (fun a => match a_kind a, a_op a with
                     | Regular _ _, ReturnFileData d _ => [(off_id (d_offset d), d_data d)]
                     | _, _ => []
                     end) l).
Proof.
  induction l as [|a l IH]; intro st; [reflexivity|]. cbn [connect_actions flat_map].
  rewrite file_steps_app. unfold connect_action.
  destruct (a_kind a); try (cbn [file_steps]; apply IH).
  destruct (a_op a) as [| | | | | | | d sf| | | | | | ]; try (cbn [file_steps]; apply IH).
  cbn [file_steps file_step].
  destruct (off_id (d_offset d) =? 0); [destruct (Nat.eqb (length (d_data d)) 8); [apply IH | reflexivity]|].
  destruct (off_id (d_offset d) =? 2); [|apply IH].
  destruct (fw_parse (stream_of (d_data d))) as [[v s]|e]; [apply IH | reflexivity].
Qed.
Lemma latest_app i a b : latest i (a ++ b) = match latest i b with Some d => Some d | None => latest i a end.
Proof.
  induction a as [|[j d] a IH]; cbn [app latest].
  - destruct (latest i b); reflexivity.
  - rewrite IH. destruct (latest i b); reflexivity.
Qed.
Lemma files_usable files : forall u f, Forall usable files ->
  exists u' f', file_steps (u, f) files = ((u', f'), None) /\ learns_uid u files u' /\ learns_fw f files f'.
Proof.
  induction files as [|[i d] files IH] using rev_ind; intros u f F.
  - exists u, f. cbn. repeat split.
  - apply Forall_app in F. destruct F as [F1 F2]. destruct (IH u f F1) as (u1 & f1 & E & LU & LF).
    inversion F2 as [|x y U _]; subst. destruct U as [U0 U2]. rewrite file_steps_app, E. cbn [file_steps file_step].
    unfold learns_uid, learns_fw in *. rewrite !latest_app. cbn [latest].
    destruct (Z.eqb_spec i 0) as [->|N0].
    + destruct (U0 eq_refl) as [L B]. rewrite L. cbn [Nat.eqb]. eexists _, _. split; [reflexivity|]. cbn [snd Z.eqb].
      rewrite bits_val_big_endian by exact B. auto.
    + destruct (Z.eqb_spec i 2) as [->|N2].
      * destruct (U2 eq_refl) as (v & s & P). rewrite P. eexists _, _. split; [reflexivity|]. cbn [fst].
        split; [exact LU|]. exists v. split; [reflexivity|]. exists s. exact P.
      * eexists _, _. split; [reflexivity|]. auto.
Qed.
Lemma file_unusable st i d : Forall is_byte d -> ~ usable (i, d) ->
  exists e, file_step st (i, d) = (st, Some e) /\ (i = 0 -> e = StructError).
Proof.
  intros B N. unfold file_step. destruct (Z.eqb_spec i 0) as [->|N0].
  - destruct (Nat.eqb_spec (length d) 8) as [L|L]; [|eauto].
    exfalso. apply N. split; [auto | discriminate].
  - destruct (Z.eqb_spec i 2) as [->|N2].
    + destruct (fw_parse (stream_of d)) as [[v s]|e] eqn:P.
      * exfalso. apply N. split; [congruence|]. intros _. exists v, s. exact P.
      * exists e. split; [reflexivity | congruence].
    + exfalso. apply N. split; congruence.
Qed.

Lemma connect_answered s c rest : execute_result s = MCmd c :: rest -> connected s = false ->
  Forall usable (returned_files c) ->
  exists s' b, connect_end s = (s', Returned (Some b))
  /\ learns_uid (se_uid s) (returned_files c) (se_uid s') /\ learns_fw (se_fw s) (returned_files c) (se_fw s')
  /\ connected s' = b /\ (b = true <-> known_both s').
Proof.
  intros E C F. unfold connect_end. rewrite E, actions_files. fold (returned_files c).
  destruct (files_usable _ (se_uid s) (se_fw s) F) as (u & f & -> & LU & LF).
  unfold connected in C. rewrite C. eexists _, _. split; [reflexivity|]. cbn [with_connected se_uid se_fw].
  split; [exact LU|]. split; [exact LF|]. split; [reflexivity|]. unfold known_both. cbn [se_uid se_fw].
  destruct u as [u|], f as [f|]; (split; [intro K; first [discriminate | split; discriminate] | intros [K1 K2]; first [reflexivity | exfalso; apply K1; reflexivity | exfalso; apply K2; reflexivity]]).
Qed.
Lemma connect_unusable s c rest good i d more : execute_result s = MCmd c :: rest ->
  returned_files c = good ++ (i, d) :: more -> Forall usable good -> Forall is_byte d -> ~ usable (i, d) ->
  exists s' e, connect_end s = (s', Raised e) /\ (i = 0 -> e = StructError)
  /\ learns_uid (se_uid s) good (se_uid s') /\ learns_fw (se_fw s) good (se_fw s') /\ connected s' = connected s.
Proof.
  intros E R F B N. unfold connect_end. rewrite E, actions_files. fold (returned_files c). rewrite R, file_steps_app.
  destruct (files_usable _ (se_uid s) (se_fw s) F) as (u & f & -> & LU & LF). cbn [file_steps].
  destruct (file_unusable (u, f) i d B N) as (e & -> & I). eexists _, _. split; [reflexivity|]. auto.
Qed.
Lemma connect_no_answer s : execute_result s = [] -> connect_end s = (s, Returned (Some false)).
Proof. intro E. unfold connect_end. rewrite E. reflexivity. Qed.

(** ** connect: the request *)
Definition request_ok (rnd : Z) : bool :=
  match connect_command rnd with
  | Ok c => match c_tag c, command_ser c with
            | Some t, Ok bs => (t =? rnd) && if list_eq_dec Z.eq_dec bs (connect_request rnd) then true else false
            | _, _ => false
            end
  | Err _ => false
  end.
Lemma request_sweep : forallb (fun n => request_ok (Z.of_nat n)) (seq 0 256) = true.
Proof. vm_compute. reflexivity. Qed.
Lemma connect_command_ok rnd : 0 <= rnd <= 255 ->
  exists c, connect_command rnd = Ok c /\ c_tag c = Some rnd /\ command_ser c = Ok (connect_request rnd).
Proof.
  intro H. pose proof request_sweep as K. rewrite forallb_forall in K.
  specialize (K (Z.to_nat rnd)). rewrite Z2Nat.id in K by lia.
  assert (I : In (Z.to_nat rnd) (seq 0 256)) by (apply in_seq; lia). specialize (K I). clear I.
  unfold request_ok in K. destruct (connect_command rnd) as [c|e]; [|discriminate]. exists c. split; [reflexivity|].
  destruct (c_tag c) as [t|]; [|discriminate]. destruct (command_ser c) as [bs|]; [|discriminate].
  destruct (list_eq_dec Z.eq_dec bs (connect_request rnd)) as [->|]; [|rewrite andb_false_r in K; discriminate].
  rewrite andb_true_r in K. apply Z.eqb_eq in K. subst t. auto.
Qed.
Lemma request_payload rnd : 0 <= rnd <= 255 -> is_payload (connect_request rnd).
Proof.
  intro H. split; [|vm_compute; discriminate]. unfold connect_request.
  repeat (apply Forall_cons; [unfold is_byte; lia|]). constructor.
Qed.
Lemma execute_ok s c bs timeout : is_byte (sp_up (r_parser (se_reader s))) -> command_ser c = Ok bs -> is_payload bs ->
  execute s c timeout
  = (mkSession (mkReader (with_up (r_parser (se_reader s)) (counter_after (sp_up (r_parser (se_reader s)))))
                         (exec_start (r_modem (se_reader s)) (c_tag c) timeout) (alive s))
               (se_uid s) (se_fw s) (se_sent s ++ frame (sp_up (r_parser (se_reader s))) 1 bs), Ok tt).
Proof.
  intros B E P. unfold execute. rewrite E, build_ok by (assumption || apply P). reflexivity.
Qed.
Lemma connect_sends rnd s : 0 <= rnd <= 255 -> connected s = false -> m_skip (r_modem (se_reader s)) = false ->
  is_byte (sp_up (r_parser (se_reader s))) ->
  connect_begin rnd true s
  = (mkSession (mkReader (with_up (r_parser (se_reader s)) (counter_after (sp_up (r_parser (se_reader s)))))
                         (exec_start (r_modem (se_reader s)) (Some rnd) 10) (alive s))
               (se_uid s) (se_fw s) (se_sent s ++ frame (sp_up (r_parser (se_reader s))) 1 (connect_request rnd)), Waiting).
Proof.
  intros H C S B. unfold connect_begin. unfold connected in C. rewrite C. cbn [negb].
  destruct (connect_command_ok rnd H) as (c & -> & T & E). rewrite S.
  rewrite (execute_ok s c _ 10 B E (request_payload rnd H)), T. reflexivity.
Qed.
Lemma connect_skip rnd s : 0 <= rnd <= 255 -> connected s = false -> m_skip (r_modem (se_reader s)) = true ->
  is_byte (sp_up (r_parser (se_reader s))) ->
  exists s', connect_begin rnd true s = (s', Returned (Some true)) /\ connected s' = true
  /\ se_sent s' = se_sent s ++ frame (sp_up (r_parser (se_reader s))) 1 (connect_request rnd)
  /\ se_uid s' = se_uid s /\ se_fw s' = se_fw s.
Proof.
  intros H C S B. unfold connect_begin. unfold connected in C. rewrite C. cbn [negb].
  destruct (connect_command_ok rnd H) as (c & -> & T & E). rewrite S.
  rewrite (execute_ok (with_connected s (se_uid s) (se_fw s) true) c _ 0 B E (request_payload rnd H)).
  eexists. split; [reflexivity|]. repeat split.
Qed.
Lemma connect_unchecked rnd s : connected s = false ->
  connect_begin rnd false s = (with_connected s (se_uid s) (se_fw s) true, Returned (Some true)).
Proof. unfold connected, connect_begin. intros ->. reflexivity. Qed.
Lemma connect_again rnd b s : connected s = true -> connect_begin rnd b s = (s, Returned None).
Proof. unfold connected, connect_begin. intros ->. reflexivity. Qed.

(** ** End to end *)
Lemma connect_traffic lib s rnd chunks tr sel : ready s -> 0 <= rnd <= 255 ->
  Forall (sent_ok false) tr -> concat chunks = wire tr -> answers_in (Some rnd) (SSerial.delivered tr) sel ->
  exists s1, connect_begin rnd true s = (s1, Waiting)
  /\ se_sent s1 = se_sent s ++ frame (sp_up (r_parser (se_reader s))) 1 (connect_request rnd)
  /\ let s2 := devices lib s1 (map DBytes chunks) in
     connected s2 = false /\ se_uid s2 = se_uid s /\ se_fw s2 = se_fw s /\ se_sent s2 = se_sent s1 /\ alive s2 = true
     /\ ((some_completed sel /\ execute_result s2 = sel) \/ (~ some_completed sel /\ execute_result s2 = [])).
Proof.
  intros (A & B & S & D & U & MS & C) H F E AN. rewrite (connect_sends rnd s H C MS U).
  eexists. split; [reflexivity|]. split; [reflexivity|]. intro s2.
  match goal with s2 := devices lib ?s1 _ |- _ =>
    assert (R : se_reader s2 = read_chunks lib (se_reader s1) chunks) by apply devices_reader;
    destruct (devices_keep lib (map DBytes chunks) s1) as (K1 & K2 & K3) end.
  cbn [se_reader se_uid se_fw se_sent] in *. fold s2 in K1, K2, K3. rewrite A in R.
  destruct (reader_traffic lib chunks (with_up (r_parser (se_reader s)) (counter_after (sp_up (r_parser (se_reader s)))))
              (exec_start (r_modem (se_reader s)) (Some rnd) 10) tr) as (p' & HR & _); try assumption.
  { cbn [with_up sp_skip]. rewrite S. exact F. }
  rewrite HR in R. unfold connected, alive, execute_result. rewrite R, K1, K2, K3. cbn [r_modem r_alive].
  refine (conj _ (conj eq_refl (conj eq_refl (conj eq_refl (conj eq_refl _))))).
  - destruct (dispatches_setup (SSerial.delivered tr) (exec_start (r_modem (se_reader s)) (Some rnd) 10)) as (_ & _ & _ & Q & _).
    rewrite Q. exact C.
  - apply sync_result; [exact MS | lia | exact AN].
Qed.
Lemma no_answers tag tr : unrelated tag tr -> answers_in (Some tag) (SSerial.delivered tr) [].
Proof.
  induction 1 as [|x tr N _ IH]; [constructor|]. cbn [SSerial.delivered map]. apply answers_skip; [right; exact N | exact IH].
Qed.
Lemma answers_app tag a b s1 s2 : answers_in tag a s1 -> answers_in tag b s2 -> answers_in tag (a ++ b) (s1 ++ s2).
Proof. intros A B. induction A; cbn [app]; try constructor; auto. Qed.

Lemma fw_bytes_layout f : fw_wf f -> Forall is_byte (fw_bytes f) /\ length (fw_bytes f) = 17%nat
  /\ bytes_bits (fw_bytes f) = fw_layout f.
Proof.
  intros (A & B & C & D & (E & E') & (G & G')). unfold fw_bytes, fw_layout.
  assert (P6 := padded_length 6 _ E'). assert (P7 := padded_length 7 _ G').
  refine (conj _ (conj _ _)).
  - unfold byte_ok in *. cbn [app]. repeat (apply Forall_cons; [unfold is_byte; lia|]).
    apply Forall_app. split; apply ascii_byte, padded_bytes; assumption.
  - rewrite !app_length, P6, P7. reflexivity.
  - rewrite !bytes_bits_app. cbn [bytes_bits flat_map]. rewrite app_nil_r, !app_assoc. reflexivity.
Qed.
Definition uid_data (uid : list Z) : Data := mkData (mkOffset 0 (mkLength 0)) (mkLength 8) uid.
Definition fw_data (f : FirmwareVersionFile) : Data := mkData (mkOffset 2 (mkLength 0)) (mkLength 17) (fw_bytes f).
Definition answer_actions (tag : Z) (uid : list Z) (f : FirmwareVersionFile) : list Action :=
  [mkAction (TagRespAct true false) (TagResponse (mkTag tag));
   mkAction (Regular false false) (ReturnFileData (uid_data uid) (try_parse_system_file (uid_data uid)));
   mkAction (Regular false false) (ReturnFileData (fw_data f) (try_parse_system_file (fw_data f)))].
Lemma answer_incoming tag uid f : 0 <= tag <= 255 -> length uid = 8%nat -> Forall is_byte uid -> fw_wf f ->
  exists ls, Forall2 incoming ls (answer_actions tag uid f) /\ concat ls = bytes_bits (connect_answer tag uid f).
Proof.
  intros T L B W. destruct (fw_bytes_layout f W) as (FB & FL & _).
  eexists. split.
  - constructor; [|constructor; [|constructor; [|constructor]]].
    + apply in_response. exact T.
    + apply in_regular.
      * split; [|reflexivity]. unfold data_wf, uid_data, off_wf, len_wf, len_max, zlen. cbn. rewrite L. repeat split; try lia. exact B.
      * left. cbn. destruct uid; discriminate.
    + apply in_regular.
      * split; [|reflexivity]. unfold data_wf, fw_data, off_wf, len_wf, len_max, zlen. cbn [d_offset d_data d_length len_value off_id off_offset]. rewrite FL. repeat split; try lia. exact FB.
      * left. cbn. discriminate.
  - unfold connect_answer. rewrite !bytes_bits_app. cbn [concat]. unfold act_bits. cbn [opcode operand_layout].
    unfold data_layout, uid_data, fw_data, off_layout. cbn [d_offset d_length d_data off_id off_offset].
    rewrite app_nil_r. rewrite <- !app_assoc. reflexivity.
Qed.
Lemma answer_sent tag uid f c t : 0 <= tag <= 255 -> length uid = 8%nat -> Forall is_byte uid -> fw_wf f -> is_byte c ->
  0 <= t <= 3 ->
  sent_ok false (mkSent c t (connect_answer tag uid f) (MCmd (command_of false None true (answer_actions tag uid f)))).
Proof.
  intros T L B W C Ht. destruct (fw_bytes_layout f W) as (FB & FL & _).
  assert (LEN : length (connect_answer tag uid f) = 35%nat).
  { unfold connect_answer. rewrite !app_length, L, FL. reflexivity. }
  refine (conj C (conj _ (conj (conj _ _) _))); cbn [s_type s_payload s_msg].
  - unfold is_byte. lia.
  - unfold connect_answer. cbn [app]. repeat (apply Forall_cons; [unfold is_byte; lia|]).
    apply Forall_app. split; [exact B|]. repeat (apply Forall_cons; [unfold is_byte; lia|]). exact FB.
  - unfold zlen. rewrite LEN. vm_compute. discriminate.
  - intros rest FR. apply carries_alp; [reflexivity | lia | lia |].
    destruct (answer_incoming tag uid f T L B W) as (ls & I & E).
    pose proof (incoming_command ls _ I) as K. rewrite E in K.
    assert (Z8 : zlen (bytes_bits (connect_answer tag uid f)) / 8 = zlen (connect_answer tag uid f)).
    { unfold zlen. rewrite bytes_bits_length. lia. }
    rewrite Z8 in K. specialize (K ltac:(unfold one_tag; cbn; lia) ltac:(unfold one_status; cbn; lia) 56%nat (bytes_bits rest) eq_refl).
    rewrite bytes_bits_app, K, skipn_app_exact by reflexivity. do 3 f_equal. rewrite bytes_bits_length. lia.
Qed.
Lemma connect_end_to_end lib s rnd c t uid f before later chunks : ready s -> 0 <= rnd <= 255 ->
  length uid = 8%nat -> Forall is_byte uid -> fw_wf f -> is_byte c -> 0 <= t <= 3 ->
  Forall (sent_ok false) before -> Forall (sent_ok false) later -> unrelated rnd before -> unrelated rnd later ->
  concat chunks = wire before ++ frame c t (connect_answer rnd uid f) ++ wire later ->
  exists s1 s3, connect_begin rnd true s = (s1, Waiting)
  /\ se_sent s1 = se_sent s ++ frame (sp_up (r_parser (se_reader s))) 1 (connect_request rnd)
  /\ connect_end (devices lib s1 (map DBytes chunks)) = (s3, Returned (Some true))
  /\ se_uid s3 = Some (big_endian uid) /\ se_fw s3 = Some (fw_padded f) /\ connected s3 = true.
Proof.
  intros R H L B W C Ht FB FL UB UL E.
  set (x := mkSent c t (connect_answer rnd uid f) (MCmd (command_of false None true (answer_actions rnd uid f)))).
  assert (OX : sent_ok false x) by (apply answer_sent; assumption).
  destruct (connect_traffic lib s rnd chunks (before ++ x :: later) [s_msg x] R H) as (s1 & E1 & E2 & E3).
  - apply Forall_app. split; [exact FB | constructor; assumption].
  - rewrite E. unfold wire. rewrite flat_map_app. reflexivity.
  - unfold SSerial.delivered. rewrite map_app. cbn [map]. apply (answers_app _ _ _ [] _); [apply no_answers; exact UB|].
    apply answers_take; [cbn; lia | exists (command_of false None true (answer_actions rnd uid f)); split; reflexivity|].
    apply no_answers. exact UL.
  - cbn zeta in E3. destruct E3 as (N & U & FW & _ & _ & [[_ X]|[X _]]).
    2: { exfalso. apply X. eexists. split; [left; reflexivity | reflexivity]. }
    destruct (connect_answered _ _ _ X N) as (s3 & b & K1 & K2 & K3 & K4 & K5).
    + change (returned_files _) with [(0, uid); (2, fw_bytes f)]. constructor; [|constructor; [|constructor]].
      * split; [auto | discriminate].
      * split; [discriminate|]. intros _. exists (fw_padded f). destruct (fw_bytes_layout f W) as (_ & _ & FE).
        pose proof (fw_accepts f W 0%nat []) as Q. rewrite app_nil_r in Q. eexists. unfold stream_of. rewrite FE. exact Q.
    + change (returned_files _) with [(0, uid); (2, fw_bytes f)] in K2, K3.
      unfold learns_uid, learns_fw in K2, K3. cbn [latest Z.eqb Pos.eqb] in K2, K3. destruct K3 as (v & K3 & s' & Q').
      assert (v = fw_padded f) as ->.
      { destruct (fw_bytes_layout f W) as (_ & _ & FE). pose proof (fw_accepts f W 0%nat []) as Q. rewrite app_nil_r in Q.
        unfold stream_of in Q'. rewrite FE, Q in Q'. congruence. }
      assert (b = true) as -> by (apply K5; split; congruence).
      exists s1, s3. repeat split; assumption.
Qed.
Lemma connect_request_sent rnd s : 0 <= rnd <= 255 -> connected s = false ->
  m_skip (r_modem (se_reader s)) = false -> is_byte (sp_up (r_parser (se_reader s))) ->
  exists s', connect_begin rnd true s = (s', Waiting)
  /\ se_sent s' = se_sent s ++ frame (sp_up (r_parser (se_reader s))) 1 (connect_request rnd)
  /\ se_uid s' = se_uid s /\ se_fw s' = se_fw s /\ connected s' = false.
Proof.
  intros H C S B. rewrite (connect_sends rnd s H C S B). eexists. split; [reflexivity|]. repeat split. exact C.
Qed.
Lemma connect_unchecked_sends rnd s : connected s = false ->
  exists s', connect_begin rnd false s = (s', Returned (Some true)) /\ connected s' = true
  /\ se_sent s' = se_sent s /\ se_uid s' = se_uid s /\ se_fw s' = se_fw s.
Proof. intro C. rewrite connect_unchecked by exact C. eexists. split; [reflexivity|]. repeat split. Qed.
Lemma exception_ends lib s es rest :
  let before := devices lib s es in
  let after := devices lib s (es ++ DException :: rest) in
  alive after = false /\ (forall p, session_inbox p after = session_inbox p before)
  /\ execute_result after = execute_result before.
Proof. cbn zeta. rewrite exception_kills. repeat split. Qed.
(** a frame whose operation code is not supported *)
Lemma peer_kills : exists bytes, Forall is_byte bytes /\
  forall lib cb rbcb, alive (devices lib (new_session false cb rbcb) [DBytes bytes]) = false.
Proof.
  exists (frame 0 1 [9; 0]). split.
  - repeat (apply Forall_cons; [unfold is_byte; vm_compute; split; discriminate|]). constructor.
  - intros [] cb rbcb; vm_compute; reflexivity.
Qed.
Lemma chunks_bytes es : Forall event_bytes es -> Forall (Forall is_byte) (chunks_of es).
Proof.
  induction 1 as [|e es B _ IH]; [constructor|]. cbn [chunks_of flat_map]. destruct e as [[|b c]|]; cbn [app]; auto.
Qed.
(** in bridge mode no bytes can end the thread *)
Lemma bridge_survives lib es s : alive s = true -> sp_skip (r_parser (se_reader s)) = true ->
  byte_in (r_parser (se_reader s)) -> Forall event_bytes es ->
  (alive (devices lib s es) = true <-> ~ In DException es).
Proof.
  intros A S B F. rewrite survives_iff by exact A. unfold survives. split; [tauto|]. intro N. split; [exact N|].
  pose proof (chunks_bytes es F) as C.
  destruct (feeds_total lib (chunks_of es) _ B C) as [K|[e K]]; [exact K|]. exfalso.
  destruct (chunks_of es) as [|c cs] eqn:E; [inversion K|].
  assert (Ne : c :: cs <> []) by discriminate.
  destruct (proj1 (chunk_raises_iff lib _ (c :: cs) B C Ne (or_intror S)) (ex_intro _ e K)) as (q & e' & X).
  assert (Fc : Forall is_byte (concat (c :: cs))).
  { clear -C. induction C; cbn [concat]; [constructor | apply Forall_app; auto]. }
  destruct (skip_never_raises lib _ _ _ _ B Fc S X) as (r & X'). discriminate.
Qed.

(** Calls on a device that may fail. *)
From Coq Require Import ZifyBool ZifyNat.
From Verif Require Export SWrite LRecover3 LConnect LOta.

(** ** The result of a call *)
Lemma out_cases s c t o : is_byte (up s) ->
  (exists e, execute_out s c t o = (s, Refused e) /\ cannot_send c)
  \/ exists alp p, command_ser c = Ok alp /\ zlen alp <= 255 /\ sp_up p = counter_after (up s)
     /\ build_serial_frame (r_parser (se_reader s)) (command_ser c) = (p, Ok (frame (up s) 1 alp))
     /\ execute_out s c t o
        = (mkSession (mkReader p (exec_start (r_modem (se_reader s)) (c_tag c) t) (r_alive (se_reader s)))
                     (se_uid s) (se_fw s) (se_sent s ++ taken o (frame (up s) 1 alp)),
           match o with Written => Waits | Failed _ => DeviceError end).
Proof.
  intros B. unfold execute_out. pose proof (build_spec (r_parser (se_reader s)) (command_ser c) B) as S.
  destruct (command_ser c) as [alp|e] eqn:E.
  - destruct (zlen alp <=? 255) eqn:L.
    + destruct S as (p & Eb & U & _). right. exists alp, p. rewrite Eb.
      refine (conj eq_refl (conj _ (conj U (conj eq_refl eq_refl)))). lia.
    + left. rewrite S. exists ValueError. split; [reflexivity|]. right. exists alp. split; [exact E | lia].
  - left. rewrite S. exists e. split; [reflexivity|]. left. exists e. exact E.
Qed.
Lemma sendable c alp : command_ser c = Ok alp -> zlen alp <= 255 -> ~ cannot_send c.
Proof. intros E L [(e & E') | (a & E' & L')]; [congruence|]. rewrite E in E'. injection E' as ->. lia. Qed.
Lemma call_result s c t o : is_byte (up s) ->
  (cannot_send c -> exists e, execute_out s c t o = (s, Refused e))
  /\ (~ cannot_send c -> snd (execute_out s c t o) = match o with Written => Waits | Failed _ => DeviceError end).
Proof.
  intros B. destruct (out_cases s c t o B) as [(e & E & N) | (alp & p & Es & L & _ & _ & E)]; rewrite E.
  - split; [intros _; exists e; reflexivity | tauto].
  - split; [intros N; exfalso; exact (sendable c alp Es L N) | reflexivity].
Qed.
(** on a device that does not fail it is the call of the other models *)
Lemma call_written s c t : execute s c t =
  (fst (execute_out s c t Written), match snd (execute_out s c t Written) with Refused e => Err e | _ => Ok tt end).
Proof.
  unfold execute, execute_out. destruct (build_serial_frame _ _) as [p [d|e]]; reflexivity.
Qed.
Lemma connect_written rnd b s : connect_begin rnd b s =
  (fst (connect_out rnd b s Written),
   match snd (connect_out rnd b s Written) with
   | CReturned v => Returned v | CRaised e => Raised e | CWaits => Waiting | CDeviceError => Waiting end)
  /\ snd (connect_out rnd b s Written) <> CDeviceError.
Proof.
  unfold connect_begin, connect_out. destruct (m_connected _); [split; [reflexivity | discriminate]|].
  destruct b; cbn [negb]; [|split; [reflexivity | discriminate]].
  destruct (connect_command rnd) as [c|e]; [|split; [reflexivity | discriminate]].
  destruct (m_skip _); rewrite call_written; unfold execute_out; destruct (build_serial_frame _ _) as [p [d|e]];
    (split; [reflexivity | discriminate]).
Qed.

(** ** A failure changes nothing but the bytes *)
Lemma alike_refl s : alike s s.
Proof. repeat split. Qed.
Lemma out_alike s s' c t o : alike s s' ->
  alike (fst (execute_out s c t o)) (fst (execute_out s' c t Written)).
Proof.
  intros (A & B & C). unfold execute_out. rewrite A. destruct (build_serial_frame _ _) as [p [d|e]].
  - cbn [fst]. repeat split; assumption.
  - cbn [fst]. repeat split; assumption.
Qed.
Lemma with_alike s s' b : alike s s' -> alike (with_connected s (se_uid s) (se_fw s) b) (with_connected s' (se_uid s') (se_fw s') b).
Proof. intros (A & B & C). unfold with_connected, alike. rewrite A, B, C. repeat split. Qed.
Lemma fst_case (s : Session) (r : CallResult) f g h : 
  (forall x, fst (f x : Session * ConnectResult) = x) -> (forall x e, fst (g x e : Session * ConnectResult) = x) ->
  (forall x, fst (h x : Session * ConnectResult) = x) ->
  fst (match r with Waits => f s | Refused e => g s e | DeviceError => h s end) = s.
Proof. intros A B C. destruct r; auto. Qed.
Lemma connect_alike rnd b s s' o : alike s s' ->
  alike (fst (connect_out rnd b s o)) (fst (connect_out rnd b s' Written)).
Proof.
  intros A. pose proof A as (R & U & F). unfold connect_out. rewrite <- R. destruct (m_connected _); [exact A|].
  destruct b; cbn [negb]; [|apply with_alike; exact A].
  destruct (connect_command rnd) as [c|e]; [|exact A]. destruct (m_skip _).
  - pose proof (out_alike _ _ c 0 o (with_alike s s' true A)) as K.
    destruct (execute_out (with_connected s _ _ true) c 0 o) as [x r].
    destruct (execute_out (with_connected s' _ _ true) c 0 Written) as [x' r']. cbn [fst] in K.
    destruct r, r'; exact K.
  - pose proof (out_alike _ _ c 10 o A) as K.
    destruct (execute_out s c 10 o) as [x r]. destruct (execute_out s' c 10 Written) as [x' r']. cbn [fst] in K.
    destruct r, r'; exact K.
Qed.
Lemma device_alike lib e s s' : alike s s' -> alike (device lib s e) (device lib s' e).
Proof. intros (A & B & C). unfold device, alike. cbn [se_reader se_uid se_fw]. rewrite A, B, C. repeat split. Qed.
Lemma end_alike s s' : alike s s' ->
  alike (fst (connect_end s)) (fst (connect_end s')) /\ snd (connect_end s) = snd (connect_end s').
Proof.
  intros A. pose proof A as (R & U & F). unfold connect_end, execute_result. rewrite <- R, <- U, <- F.
  destruct (exec_result _) as [|[z|l|c] q]; try (split; [exact A | reflexivity]).
  destruct (connect_actions _ _) as [[u f] [e|]]; (split; [|reflexivity]);
  unfold with_connected, alike; cbn [fst se_reader se_uid se_fw]; rewrite <- R; repeat split.
Qed.
Lemma step_alike lib e s s' : alike s s' -> alike (wstep lib s e) (wstep lib s' (no_failure e)).
Proof.
  intros A. destruct e as [d|c t o|rnd b o|]; cbn [wstep no_failure].
  - apply device_alike. exact A.
  - apply out_alike. exact A.
  - apply connect_alike. exact A.
  - apply end_alike. exact A.
Qed.
Lemma run_alike_from lib l : forall s s', alike s s' -> alike (wrun lib s l) (wrun lib s' (map no_failure l)).
Proof.
  induction l as [|e l IH]; intros s s' A; [exact A|]. cbn [wrun fold_left map]. apply IH. apply step_alike. exact A.
Qed.
Lemma run_alike lib l s : alike (wrun lib s l) (wrun lib s (map no_failure l)).
Proof. apply run_alike_from, alike_refl. Qed.
Lemma alike_result s s' : alike s s' -> execute_result s = execute_result s'.
Proof. intros (A & _). unfold execute_result. rewrite A. reflexivity. Qed.

Lemma alike_answers s s' : alike s s' -> execute_result s = execute_result s' /\ snd (connect_end s) = snd (connect_end s').
Proof. intros A. exact (conj (alike_result s s' A) (proj2 (end_alike s s' A))). Qed.

(** the steps without failures are those of the other models *)
Lemma step_written lib s e : wstep lib s (no_failure e) =
  match e with
  | WDevice d => device lib s d
  | WCall c t _ => fst (execute s c t)
  | WConnect rnd b _ => fst (connect_begin rnd b s)
  | WConnectEnd => fst (connect_end s)
  end.
Proof.
  destruct e as [d|c t o|rnd b o|]; cbn [no_failure wstep]; try reflexivity.
  - rewrite call_written. reflexivity.
  - destruct (connect_written rnd b s) as [-> _]. reflexivity.
Qed.

(** ** The line *)
Lemma device_up lib s e : up (device lib s e) = up s.
Proof. unfold up. destruct (device_reader lib s e) as (ms & _ & U). exact U. Qed.
Lemma device_sent lib s e : se_sent (device lib s e) = se_sent s.
Proof. reflexivity. Qed.
Lemma taken_piece n alp m o : taken o (frame n 1 alp) = piece_bytes (piece_of n alp m o).
Proof.
  destruct o as [|k]; [reflexivity|]. cbn [taken piece_of]. destruct (Nat.leb_spec (length (frame n 1 alp)) k) as [L|L]; [|reflexivity].
  cbn [piece_bytes]. unfold sent_frame. cbn [s_counter s_type s_payload]. apply firstn_all2. exact L.
Qed.
Lemma counter_byte n : is_byte (counter_after n).
Proof. unfold counter_after, is_byte. lia. Qed.
Lemma run_line lib n l ps : line n l ps -> forall s, is_byte n -> up s = n ->
  se_sent (wrun lib s l) = se_sent s ++ on_line ps.
Proof.
  induction 1 as [n|n e r l H IH|n c t o r l N H IH|n c t o alp m r l E L H IH]; intros s B U; cbn [wrun fold_left wstep].
  - cbn [on_line flat_map]. rewrite app_nil_r. reflexivity.
  - fold (wrun lib (device lib s e) r). rewrite IH; [apply f_equal2; [apply device_sent | reflexivity] | exact B | rewrite device_up; exact U].
  - assert (Bs : is_byte (up s)) by (rewrite U; exact B).
    destruct (call_result s c t o Bs) as [K _]. destruct (K N) as (e & Ee). rewrite Ee. cbn [fst].
    fold (wrun lib s r). apply IH; assumption.
  - assert (Bs : is_byte (up s)) by (rewrite U; exact B).
    destruct (out_cases s c t o Bs) as [(e & _ & N) | (alp' & p & E' & _ & Up & _ & Ee)].
    { exfalso. exact (sendable c alp E L N). }
    rewrite E in E'. injection E' as <-. rewrite Ee. cbn [fst]. rewrite U in Up. 
    match goal with |- context [fold_left _ r ?x] => fold (wrun lib x r); rewrite (IH x) end;
      [|apply counter_byte | exact Up].
    cbn [se_sent on_line flat_map]. rewrite U, (taken_piece n alp m o). symmetry. apply app_assoc.
Qed.
Lemma run_peer lib lib' l ps s q chunks : is_byte (up s) -> se_sent s = [] -> line (up s) l ps ->
  line_ok (sp_skip q) ps -> sp_buf q = [] -> concat chunks = se_sent (wrun lib s l) -> chunks <> [] ->
  exists q' es, feeds lib' q chunks q' (delivered (intact ps)) es /\ sp_buf q' = []
    /\ Forall (fun e => pe_exn e = ParseError) es.
Proof.
  intros B S L K Q E N. apply recover_line; [exact K | | exact N].
  rewrite Q, E, (run_line lib _ _ _ L s B eq_refl), S. reflexivity.
Qed.

(** ** A late answer to a failed call *)
Lemma build_keeps p ser p' f : build_serial_frame p ser = (p', Ok f) -> sp_buf p' = sp_buf p /\ sp_skip p' = sp_skip p.
Proof.
  unfold build_serial_frame. destruct (rbind ser _) as [x|e]; intros E; [|discriminate E]. injection E as <- _. split; reflexivity.
Qed.
Lemma late_answer lib s c t k x a : is_byte (up s) -> skipping s = false -> sp_skip (r_parser (se_reader s)) = false ->
  sp_buf (r_parser (se_reader s)) = [] -> r_alive (se_reader s) = true -> 0 < t -> ~ cannot_send c ->
  sent_ok false x -> s_msg x = MCmd a -> c_tag a = c_tag c -> s_type x <= 3 ->
  let s1 := fst (execute_out s c t (Failed k)) in
  let s2 := device lib s1 (DBytes (sent_frame x)) in
  m_cb_calls (r_modem (se_reader s2)) = m_cb_calls (r_modem (se_reader s))
  /\ m_unsol (r_modem (se_reader s2)) = m_unsol (r_modem (se_reader s))
  /\ execute_result s2 = (if c_completed a then [MCmd a] else []).
Proof.
  intros B Sk Ps Pb Al T N Hx Ha Tg Ty.
  destruct (out_cases s c t (Failed k) B) as [(e & _ & N') | (alp & p & Es & L & Up & Eb & Ee)]; [tauto|].
  rewrite Ee. cbn [fst]. cbv zeta.
  destruct (build_keeps _ _ _ _ Eb) as (Pb' & Ps').
  rewrite Pb in Pb'. rewrite Ps in Ps'.
  unfold device, execute_result. cbn [se_reader se_uid se_fw se_sent].
  unfold reader_chunk. cbn [r_alive r_parser r_modem]. rewrite Al.
  destruct (sent_frame_head x) as (q & Eq).
  pose proof (receive_wire lib p [x] ltac:(rewrite Ps'; repeat constructor; apply Hx) Pb') as R.
  cbn [wire flat_map] in R. rewrite app_nil_r in R.
  destruct (sent_frame x) as [|f0 fr] eqn:Ef; [discriminate|]. rewrite R.
  cbn [pr_msgs delivered map fold_left r_modem]. rewrite Ha.
  assert (Rs : is_response (exec_start (r_modem (se_reader s)) (c_tag c) t) (s_type x) (MCmd a) = true).
  { unfold is_response, exec_start. unfold skipping in Sk. rewrite Sk. cbn [set_sync m_skip m_tag negb andb].
    replace (0 <? t) with true by lia. rewrite Tg. replace (s_type x <=? 3) with true by lia. rewrite andb_true_r.
    rewrite Sk. destruct (c_tag c); cbn [tag_eqb negb andb]; [apply Z.eqb_refl | reflexivity]. }
  unfold dispatch. rewrite Rs. unfold exec_start. unfold skipping in Sk. rewrite Sk.
  unfold set_sync, exec_result. cbn [m_cb_calls m_unsol m_completed m_resp m_heap msg_completed].
  refine (conj eq_refl (conj eq_refl _)). destruct (c_completed a); [|reflexivity].
  generalize (m_heap (r_modem (se_reader s))). intros h. induction h as [|y h IH]; [reflexivity | exact IH].
Qed.

(** ** connect *)
Lemma connect_fails_skip rnd s k : 0 <= rnd <= 255 -> connected s = false -> skipping s = true -> is_byte (up s) ->
  exists s', connect_out rnd true s (Failed k) = (s', CDeviceError)
  /\ connected s' = true
  /\ se_sent s' = se_sent s ++ firstn k (frame (up s) 1 (connect_request rnd))
  /\ forall rnd' b o, connect_out rnd' b s' o = (s', CReturned None).
Proof.
  intros H C S B. unfold connect_out. unfold connected in C. rewrite C. cbn [negb].
  destruct (connect_command_ok rnd H) as (c & -> & T & E). unfold skipping in S. rewrite S.
  pose proof (request_payload rnd H) as [_ P].
  destruct (out_cases (with_connected s (se_uid s) (se_fw s) true) c 0 (Failed k) B)
    as [(e & _ & N) | (alp & p & E' & L & Up & Eb & ->)]; [exfalso; exact (sendable c _ E P N)|].
  rewrite E in E'. injection E' as <-. eexists. refine (conj eq_refl (conj _ (conj eq_refl _))).
  - reflexivity.
  - intros rnd' b o. reflexivity.
Qed.
Lemma connect_fails rnd s k : 0 <= rnd <= 255 -> connected s = false -> skipping s = false -> is_byte (up s) ->
  exists s', connect_out rnd true s (Failed k) = (s', CDeviceError)
  /\ connected s' = false
  /\ se_sent s' = se_sent s ++ firstn k (frame (up s) 1 (connect_request rnd))
  /\ forall rnd', 0 <= rnd' <= 255 -> exists s2, connect_out rnd' true s' Written = (s2, CWaits)
       /\ se_sent s2 = se_sent s' ++ frame (counter_after (up s)) 1 (connect_request rnd').
Proof.
  intros H C S B. unfold connect_out at 1. unfold connected in C. rewrite C. cbn [negb].
  destruct (connect_command_ok rnd H) as (c & -> & T & E). unfold skipping in S. rewrite S.
  pose proof (request_payload rnd H) as [_ P].
  destruct (out_cases s c 10 (Failed k) B)
    as [(e & _ & N) | (alp & p & E' & L & Up & Eb & ->)]; [exfalso; exact (sendable c _ E P N)|].
  rewrite E in E'. injection E' as <-. eexists. refine (conj eq_refl (conj _ (conj eq_refl _))).
  - exact C.
  - intros rnd' H'. unfold connect_out. cbn [se_reader r_modem exec_start set_sync m_connected m_skip]. rewrite C. cbn [negb].
    destruct (connect_command_ok rnd' H') as (c' & -> & T' & E2). rewrite S.
    pose proof (request_payload rnd' H') as [_ P'].
    match goal with |- context [execute_out ?x c' 10 Written] =>
      destruct (out_cases x c' 10 Written) as [(e & _ & N) | (alp' & p' & E3 & L' & Up' & Eb' & ->)] end.
    + unfold up. cbn [se_reader r_parser]. rewrite Up. apply counter_byte.
    + exfalso. exact (sendable c' _ E2 P' N).
    + rewrite E2 in E3. injection E3 as <-. eexists. split; [reflexivity|]. cbn [se_sent taken].
      unfold up at 2. cbn [se_reader r_parser]. rewrite Up. reflexivity.
Qed.

(** ** A history with a failed call *)
Definition case_request : list Z := [180; 5; 1; 0; 0; 8; 1; 2; 0; 17].
Lemma write_case : exists c, command_ser c = Ok case_request
  /\ exists ps, line 255 [WCall c 10 Written; WCall c 10 (Failed 16); WDevice (DBytes [1]); WCall c 0 Written] ps
     /\ line_ok true ps /\ map s_counter (intact ps) = [255; 1].
Proof.
  destruct (connect_command_ok 5 ltac:(lia)) as (c & _ & _ & E). change (connect_request 5) with case_request in E.
  exists c. split; [exact E|].
  assert (P : is_payload case_request).
  { split; [unfold case_request; repeat (apply Forall_cons; [unfold is_byte; lia|]); constructor | vm_compute; discriminate]. }
  assert (O : forall n, is_byte n -> sent_ok true (mkSent n 1 case_request (MRaw case_request))).
  { intros n B. refine (conj B (conj _ (conj P _))); [unfold is_byte; cbn; lia|]. intros rest _.
    apply carries_raw; [reflexivity | discriminate | discriminate]. }
  eexists. split.
  - eapply line_call with (m := MRaw case_request); [exact E | apply P |].
    eapply line_call with (m := MRaw case_request); [exact E | apply P |].
    apply line_device. eapply line_call with (m := MRaw case_request); [exact E | apply P |]. apply line_nil.
  - split; [|vm_compute; reflexivity].
    assert (Ef : piece_of (counter_after 255) case_request (MRaw case_request) (Failed 16)
      = Damaged (192 :: 0 :: 0 :: 1 :: zlen ([180; 5; 1; 0; 0; 8; 1; 2; 0] ++ [192])
                 :: fst (calculate_crc case_request) :: snd (calculate_crc case_request) :: [180; 5; 1; 0; 0; 8; 1; 2; 0]))
      by (vm_compute; reflexivity).
    rewrite Ef. cbn [line_ok piece_of].
    assert (B : is_byte 255 /\ is_byte (counter_after (counter_after 255))).
    { split; [unfold is_byte; lia | apply counter_byte]. }
    refine (conj (O _ (proj1 B)) _).
    match goal with |- _ /\ harmless _ ?w /\ _ =>
      destruct (lone_sync 0 1 ([180; 5; 1; 0; 0; 8; 1; 2; 0] ++ [192]) (fst (calculate_crc case_request)) (snd (calculate_crc case_request))
        [180; 5; 1; 0; 0; 8; 1; 2; 0] w (tl w)) as [H S] end.
    + vm_compute. reflexivity.
    + vm_compute. discriminate.
    + vm_compute. repeat constructor; discriminate.
    + refine (conj _ (conj H (conj S (conj _ (conj (O _ (proj2 B)) Logic.I))))).
      * vm_compute. repeat (apply Forall_cons; [split; discriminate|]). constructor.
      * right. eexists. vm_compute. reflexivity.
Qed.
Lemma late_case : exists c x a, ~ cannot_send c /\ sent_ok false x /\ s_msg x = MCmd a /\ c_tag a = c_tag c
  /\ c_tag c = Some 5 /\ s_type x <= 3 /\ c_completed a = true.
Proof.
  destruct (connect_command_ok 5 ltac:(lia)) as (c & _ & T & E).
  exists c. eexists (mkSent 9 1 (connect_answer 5 [1; 2; 3; 4; 5; 6; 7; 8] (mkFw 1 2 3 4 [65] [66])) _), _.
  refine (conj _ (conj (answer_sent 5 _ _ 9 1 _ _ _ _ _ _) (conj eq_refl (conj _ (conj T (conj _ _)))))).
  - apply (sendable c _ E). apply request_payload. lia.
  - lia.
  - reflexivity.
  - repeat apply Forall_cons; try apply Forall_nil; unfold is_byte; lia.
  - unfold fw_wf, byte_ok, ascii_text. cbn [fw_major fw_minor fw_fs_major fw_fs_minor fw_app fw_git length].
    repeat match goal with |- _ /\ _ => split end; try lia; repeat constructor; lia.
  - unfold is_byte. lia.
  - lia.
  - rewrite T. reflexivity.
  - cbn. lia.
  - reflexivity.
Qed.

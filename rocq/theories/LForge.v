(** Lemmas for C91 *)
From Coq Require Import ZifyBool ZifyNat.
From Verif Require Import Bits LBits LBytes LGood LTypes LAlp LAction LCommand LReser LTraffic LRun LSend LLink LChunk LSerialProps LFiles LBuild.
From Verif Require Import SForge LModem LConnect LConverse LLate LRecover3.
Open Scope list_scope.
Open Scope Z_scope.

Lemma no_c0_harmless d w : no_c0 d -> harmless d w.
Proof.
  intros N pre d' -> Nd (c & t & p & r & _ & _ & _ & E). apply Forall_app in N. destruct N as [_ N].
  destruct d' as [|y d']; [congruence|]. inversion N; subst. unfold frame in E. destruct (calculate_crc p). injection E as -> _. congruence.
Qed.
Lemma no_c0_settled d w : no_c0 d -> settled d w.
Proof.
  intros N pre d' -> Nd H. apply Forall_app in N. destruct N as [_ N]. destruct d' as [|y d']; [congruence|].
  inversion N; subst. cbn [app] in H. inversion H; subst; congruence.
Qed.
Lemma on_line_intact l r : on_line (map Intact l ++ r) = wire l ++ on_line r.
Proof. unfold on_line. rewrite flat_map_app. f_equal. induction l as [|x l IH]; [reflexivity|]. cbn [map flat_map piece_bytes]. rewrite IH. reflexivity. Qed.
Lemma intact_intact l r : intact (map Intact l ++ r) = l ++ intact r.
Proof. unfold intact. rewrite flat_map_app. f_equal. induction l as [|x l IH]; [reflexivity|]. cbn [map flat_map app]. rewrite IH. reflexivity. Qed.
Lemma line_ok_intact skip l r : Forall (sent_ok skip) l -> line_ok skip r -> line_ok skip (map Intact l ++ r).
Proof. intros F R. induction F as [|x l X F IH]; [exact R|]. cbn [map app line_ok]. auto. Qed.
Lemma wire_starts l r : (r = [] \/ exists q, r = 192 :: q) -> wire l ++ r = [] \/ exists q, wire l ++ r = 192 :: q.
Proof.
  intros R. destruct l as [|x l]; [exact R|]. right. destruct (wire_two x l) as (q & ->). eexists. reflexivity.
Qed.

(** damage, forged frames, the end of the payload, intact frames *)
Definition pieces d forged b traffic : list Piece := Damaged d :: map Intact forged ++ Damaged b :: map Intact traffic ++ [].
Lemma forged_line lib p chunks d forged b traffic :
  Forall (sent_ok (sp_skip p)) forged -> Forall (sent_ok (sp_skip p)) traffic -> Forall is_byte d -> Forall is_byte b ->
  no_c0 b -> (forged = [] -> b = []) ->
  harmless d (wire forged ++ b ++ wire traffic) -> settled d (wire forged ++ b ++ wire traffic) ->
  sp_buf p ++ concat chunks = d ++ wire forged ++ b ++ wire traffic -> chunks <> [] ->
  exists p' es, feeds lib p chunks p' (delivered (forged ++ traffic)) es /\ sp_buf p' = []
    /\ Forall (fun e => pe_exn e = ParseError) es.
Proof.
  intros Ff Ft Fd Fb Nb N H S E Hn.
  assert (Et : on_line (map Intact traffic ++ []) = wire traffic) by (rewrite on_line_intact; apply app_nil_r).
  assert (Eb : on_line (Damaged b :: map Intact traffic ++ []) = b ++ wire traffic).
  { change (on_line (Damaged b :: map Intact traffic ++ [])) with (b ++ on_line (map Intact traffic ++ [])). rewrite Et. reflexivity. }
  assert (Ef : on_line (map Intact forged ++ Damaged b :: map Intact traffic ++ []) = wire forged ++ b ++ wire traffic)
    by (rewrite on_line_intact, Eb; reflexivity).
  assert (Lt : line_ok (sp_skip p) (map Intact traffic ++ [])) by (apply line_ok_intact; [exact Ft | exact Logic.I]).
  assert (L : line_ok (sp_skip p) (pieces d forged b traffic)).
  { unfold pieces. cbn [line_ok]. rewrite Ef. refine (conj Fd (conj H (conj S (conj _ _)))).
    - destruct forged as [|x forged].
      + rewrite (N eq_refl). cbn [wire flat_map app]. destruct (wire_starts traffic [] (or_introl eq_refl)) as [W|W]; rewrite app_nil_r in W; auto.
      + right. destruct (wire_two x forged) as (q & ->). eexists. reflexivity.
    - apply line_ok_intact; [exact Ff|]. cbn [line_ok]. rewrite Et.
      refine (conj Fb (conj (no_c0_harmless _ _ Nb) (conj (no_c0_settled _ _ Nb) (conj _ Lt)))).
      destruct (wire_starts traffic [] (or_introl eq_refl)) as [W|W]; rewrite app_nil_r in W; auto. }
  destruct (recover_line lib chunks p (pieces d forged b traffic) L) as (p' & es & R); [|exact Hn|].
  - rewrite E. unfold pieces. change (on_line (Damaged d :: ?l)) with (d ++ on_line l). rewrite Ef. reflexivity.
  - exists p', es. unfold pieces in R. change (intact (Damaged d :: ?l)) with (intact l) in R.
    rewrite intact_intact in R. change (intact (Damaged b :: ?l)) with (intact l) in R. rewrite intact_intact in R.
    cbn [intact flat_map] in R. rewrite app_nil_r in R. exact R.
Qed.
Lemma wire_app_bytes skip l : Forall (sent_ok skip) l -> Forall is_byte (wire l).
Proof. apply wire_bytes. Qed.

(** the receiver starts to listen within the frame, before the forged frames *)
Lemma late_forged lib p chunks c t a forged b traffic d :
  Forall (sent_ok (sp_skip p)) forged -> Forall (sent_ok (sp_skip p)) traffic -> is_byte c -> is_byte t ->
  is_payload (a ++ wire forged ++ b) -> no_c0 b -> (forged = [] -> b = []) ->
  joined_late (firstn (7 + length a) (frame c t (a ++ wire forged ++ b))) d -> no_c0 d ->
  sp_buf p ++ concat chunks = d ++ wire forged ++ b ++ wire traffic -> chunks <> [] ->
  exists p' es, feeds lib p chunks p' (delivered (forged ++ traffic)) es /\ sp_buf p' = []
    /\ Forall (fun e => pe_exn e = ParseError) es.
Proof.
  intros Ff Ft Bc Bt P Nb N (lost & J & _) Nd E Hn.
  assert (Fp : Forall is_byte (frame c t (a ++ wire forged ++ b))) by (apply frame_bytes; assumption).
  assert (Fd : Forall is_byte d).
  { rewrite <- (firstn_skipn (7 + length a)) in Fp. apply Forall_app in Fp. rewrite J in Fp. destruct Fp as [Fp _]. apply Forall_app in Fp. apply Fp. }
  destruct P as [P _]. apply Forall_app in P. destruct P as [_ P]. apply Forall_app in P. destruct P as [_ P].
  apply (forged_line lib p chunks d forged b traffic); try assumption; [apply no_c0_harmless | apply no_c0_settled]; exact Nd.
Qed.

Lemma wrong_version v r w : v <> 0 -> no_c0 (v :: r) -> harmless (192 :: v :: r) w /\ settled (192 :: v :: r) w.
Proof.
  intros V N. split; intros [|q pre] d' Ed Nd H; cbn [app] in Ed.
  - subst d'. destruct H as (c & t & p & z & _ & _ & _ & E). unfold frame in E. destruct (calculate_crc p). injection E as E _. congruence.
  - injection Ed as _ Ed. rewrite Ed in N. apply Forall_app in N. destruct N as [_ N].
    exact (no_c0_harmless d' w N [] d' eq_refl Nd H).
  - subst d'. cbn [app] in H. inversion H; subst; congruence.
  - injection Ed as _ Ed. rewrite Ed in N. apply Forall_app in N. destruct N as [_ N].
    exact (no_c0_settled d' w N [] d' eq_refl Nd H).
Qed.
Lemma app_cons_eq {A} (x y : list A) : forall a v r, x ++ y = a ++ v :: r -> (length x <= length a)%nat ->
  exists a', a = x ++ a' /\ y = a' ++ v :: r.
Proof.
  induction x as [|u x IH]; intros a v r E L; [exists a; auto|]. destruct a as [|u' a]; [cbn in L; lia|].
  cbn [app] in E. injection E as <- E. destruct (IH a v r E) as (a' & -> & ->); [cbn [length] in L; lia|]. exists a'. auto.
Qed.
(** what follows the counter, type and length bytes *)
Lemma changed_crc c t a inner rest front' i : is_payload (a ++ inner) -> Forall is_byte front' ->
  byte_changed i (firstn (7 + length a) (frame c t (a ++ inner))) front' -> (5 <= i)%nat -> no_c0 (tl front') ->
  harmless front' (inner ++ rest) /\ settled front' (inner ++ rest).
Proof.
  intros [Fp Lp] Ff' (u & v & v' & w & L & E & -> & D) I N. unfold frame in E.
  destruct (calculate_crc (a ++ inner)) as [h l] eqn:C.
  replace (firstn (7 + length a) ([192; 0; c; t; zlen (a ++ inner); h; l] ++ a ++ inner))
    with ([192; 0; c; t; zlen (a ++ inner)] ++ [h; l] ++ a) in E
    by (cbn [Nat.add app firstn]; rewrite firstn_app, firstn_all, Nat.sub_diag, app_nil_r; reflexivity).
  destruct (app_cons_eq _ _ _ _ _ E) as (u' & -> & E2); [cbn; lia|]. clear E.
  assert (X : exists h' l' a', u' ++ v' :: w = [h'; l'] ++ a' /\ length a' = length a /\ calculate_crc (a' ++ inner) <> (h', l')).
  { assert (G : forall h' l' a', Forall is_byte (h' :: l' :: a') -> length a' = length a -> (a' ++ inner) ++ [h'; l'] <> protected (a ++ inner) ->
       burst 16 (diff (bytes_bits (protected (a ++ inner))) (bytes_bits ((a' ++ inner) ++ [h'; l']))) -> calculate_crc (a' ++ inner) <> (h', l')).
    { intros h' l' a' F' L' Ne B Ec. inversion F' as [|? ? Bh F1]; subst. inversion F1 as [|? ? Bl F2]; subst.
      apply (crc_detects (a ++ inner) ((a' ++ inner) ++ [h'; l']) Fp).
      - apply Forall_app in Fp. rewrite !Forall_app. repeat split; try assumption; [apply Fp|]. repeat apply Forall_cons; auto.
      - unfold protected. rewrite C, !app_length, L'. reflexivity.
      - exact Ne.
      - left. exact B.
      - exists (a' ++ inner). unfold protected. rewrite Ec. reflexivity. }
    apply Forall_app in Ff'. destruct Ff' as [Fu Fw]. apply Forall_app in Fu. destruct Fu as [_ Fu].
    inversion Fw as [|? ? Bv Fw']; subst.
    destruct u' as [|h0 [|l0 u']]; cbn [app] in E2.
    - injection E2 as -> <-. exists v', l, a. refine (conj eq_refl (conj eq_refl _)).
      apply G; try reflexivity; [constructor; assumption | |]; unfold protected; rewrite C.
      + intros Q. apply app_inv_head in Q. congruence.
      + apply (tail_burst (a ++ inner) [v] [v'] [l]); cbn; lia.
    - injection E2 as <- -> ->. exists h, v', w. refine (conj eq_refl (conj eq_refl _)).
      apply G; try reflexivity; [inversion Fu; constructor; auto | |]; unfold protected; rewrite C.
      + intros Q. apply app_inv_head in Q. congruence.
      + assert (R : forall z, (w ++ inner) ++ [h; z] = ((w ++ inner) ++ [h]) ++ [z] ++ []) by (intros z; rewrite <- !app_assoc; reflexivity).
        rewrite (R v), (R v').
        apply (tail_burst ((w ++ inner) ++ [h]) [v] [v'] []); cbn; lia.
    - injection E2 as <- <- ->. exists h, l, (u' ++ v' :: w). refine (conj eq_refl (conj _ _)); [rewrite !app_length; reflexivity|].
      apply G; unfold protected; try rewrite C.
      + inversion Fu as [|? ? ? Fu1]; subst. inversion Fu1; subst. constructor; [assumption|]. constructor; [assumption|]. apply Forall_app. auto.
      + rewrite !app_length. reflexivity.
      + rewrite <- !app_assoc. intros Q. apply app_inv_head in Q. injection Q as Q. congruence.
      + rewrite <- !app_assoc. apply (tail_burst u' [v] [v'] (w ++ inner ++ [h; l])); cbn; lia. }
  destruct X as (h' & l' & a' & EX & La & Cr).
  replace (([192; 0; c; t; zlen (a ++ inner)] ++ u') ++ v' :: w) with (192 :: 0 :: c :: t :: zlen (a' ++ inner) :: h' :: l' :: a') in *.
  2:{ rewrite <- app_assoc, EX. cbn [app]. unfold zlen. rewrite !app_length, La. reflexivity. }
  apply (lone_sync c t (a' ++ inner) h' l' a' (inner ++ rest) rest); [rewrite app_assoc; reflexivity | exact Cr | exact N].
Qed.
Lemma hit_forged lib p chunks c t a forged b traffic front' i :
  Forall (sent_ok (sp_skip p)) forged -> Forall (sent_ok (sp_skip p)) traffic ->
  is_payload (a ++ wire forged ++ b) -> no_c0 b -> (forged = [] -> b = []) ->
  byte_changed i (firstn (7 + length a) (frame c t (a ++ wire forged ++ b))) front' ->
  i <> 2%nat -> i <> 3%nat -> i <> 4%nat -> Forall is_byte front' -> no_c0 (tl front') ->
  sp_buf p ++ concat chunks = front' ++ wire forged ++ b ++ wire traffic -> chunks <> [] ->
  exists p' es, feeds lib p chunks p' (delivered (forged ++ traffic)) es /\ sp_buf p' = []
    /\ Forall (fun e => pe_exn e = ParseError) es.
Proof.
  intros Ff Ft P Nb N B I2 I3 I4 F' N' E Hn.
  assert (H : harmless front' ((wire forged ++ b) ++ wire traffic) /\ settled front' ((wire forged ++ b) ++ wire traffic)).
  { destruct (Nat.le_gt_cases 5 i) as [I|I]; [apply (changed_crc c t a _ _ front' i P F' B I N')|].
    destruct B as (u & v & v' & w & L & EB & -> & D). unfold frame in EB. destruct (calculate_crc (a ++ wire forged ++ b)) as [h l].
    cbn [Nat.add app firstn] in EB. destruct u as [|u0 [|u1 u]]; cbn [length] in L; [| |lia].
    - injection EB as <- <-. cbn [app tl] in *. match goal with |- harmless ?d ?w /\ _ => assert (no_c0 d) by (constructor; [congruence | exact N']) end.
      split; [apply no_c0_harmless | apply no_c0_settled]; assumption.
    - injection EB as <- <- <-. cbn [app tl] in *. apply wrong_version; [congruence | exact N']. }
  rewrite <- app_assoc in H. destruct H as [H S].
  destruct P as [P _]. apply Forall_app in P. destruct P as [_ P]. apply Forall_app in P. destruct P as [_ P].
  apply (forged_line lib p chunks front' forged b traffic); assumption.
Qed.

Lemma broken_forged lib p chunks c t a forged b traffic d :
  Forall (sent_ok (sp_skip p)) forged -> Forall (sent_ok (sp_skip p)) traffic -> is_byte c -> is_byte t ->
  is_payload (a ++ wire forged ++ b) -> no_c0 b -> (forged = [] -> b = []) ->
  broken (front c t a (wire forged ++ b)) d ->
  sp_buf p ++ concat chunks = d ++ wire forged ++ b ++ wire traffic -> chunks <> [] ->
  exists p' es, feeds lib p chunks p' (delivered (forged ++ traffic)) es /\ sp_buf p' = []
    /\ Forall (fun e => pe_exn e = ParseError) es.
Proof.
  intros Ff Ft Bc Bt P Nb N [J Nd|i B I2 I3 I4 Fd Nd] E Hn.
  - apply (late_forged lib p chunks c t a forged b traffic d); assumption.
  - apply (hit_forged lib p chunks c t a forged b traffic d i); assumption.
Qed.
Lemma front_split c t a rest : frame c t (a ++ rest) = front c t a rest ++ rest.
Proof.
  unfold front, frame. destruct (calculate_crc (a ++ rest)). cbn [Nat.add app firstn].
  rewrite firstn_app, firstn_all, Nat.sub_diag, app_nil_r. reflexivity.
Qed.
Lemma front_late c t a rest : no_c0 (tl (front c t a rest)) -> broken (front c t a rest) (tl (front c t a rest)).
Proof.
  intros N. apply broken_late; [|exact N]. unfold front, frame in *. destruct (calculate_crc (a ++ rest)).
  cbn [Nat.add app firstn tl] in *. eexists [192]. split; [reflexivity | discriminate].
Qed.

(** ** The same with a modem *)
Lemma exchange_damaged lib s k timeout tr chunks tr0 : in_use s -> command_wf k -> command_bytes k <= 255 -> 0 < timeout ->
  (forall q, sp_buf q = [] -> sp_skip q = false -> exists p' es, feeds lib q (filter nonempty chunks) p' (delivered tr) es) ->
  let x := mkExchange k timeout tr chunks in
  let (s2, v) := exchange lib s (mkExchange k timeout tr0 chunks) in
  v = Ok (expected x)
  /\ session_inbox PCallback s2 = session_inbox PCallback s ++ (if to_callback s then others x else [])
  /\ session_inbox PUnsolicited s2 = session_inbox PUnsolicited s ++ (if to_callback s then [] else others x).
Proof.
  intros (A & B & S & D & U & MS) W L T H x.
  destruct (transmits_command k W L) as (bs & Eb & P & _).
  unfold exchange. cbn [x_command x_timeout x_chunks].
  rewrite (execute_ok s k bs timeout U Eb P). set (s1 := mkSession _ _ _ _).
  pose proof (devices_reader lib chunks s1) as R. unfold s1 in R at 2. cbn [se_reader] in R. rewrite A, read_filter in R.
  destruct (H (with_up (r_parser (se_reader s)) (counter_after (sp_up (r_parser (se_reader s))))) B S) as (p' & es & F).
  rewrite (read_feeds _ _ _ _ _ _ F (filter_nonempty chunks)) in R.
  destruct (modem_exchange (r_modem (se_reader s)) _ timeout x MS T eq_refl) as (M0 & M1 & M2 & _).
  unfold execute_result, session_inbox, to_callback, connected. rewrite R. cbn [r_modem]. cbn [x_traffic x x_command] in M0, M1, M2.
  rewrite M0. auto.
Qed.
Lemma modem_forged lib s k timeout chunks c t a forged b traffic d :
  in_use s -> command_wf k -> command_bytes k <= 255 -> 0 < timeout ->
  Forall (sent_ok false) forged -> Forall (sent_ok false) traffic -> is_byte c -> is_byte t ->
  is_payload (a ++ wire forged ++ b) -> no_c0 b -> forged <> [] ->
  broken (front c t a (wire forged ++ b)) d -> concat chunks = d ++ wire forged ++ b ++ wire traffic ->
  let x := mkExchange k timeout (forged ++ traffic) chunks in
  let (s2, v) := exchange lib s x in
  v = Ok (expected x)
  /\ session_inbox PCallback s2 = session_inbox PCallback s ++ (if to_callback s then others x else [])
  /\ session_inbox PUnsolicited s2 = session_inbox PUnsolicited s ++ (if to_callback s then [] else others x).
Proof.
  intros U W L T Ff Ft Bc Bt P Nb N Br E x. apply (exchange_damaged lib s k timeout (forged ++ traffic) chunks (forged ++ traffic) U W L T).
  intros q B S. destruct (broken_forged lib q (filter nonempty chunks) c t a forged b traffic d) as (p' & es & F & _); try rewrite S; try assumption.
  - congruence.
  - rewrite B, concat_filter. exact E.
  - intros Z. apply (f_equal (@concat Z.t)) in Z. rewrite concat_filter, E in Z. destruct forged as [|x0 forged]; [congruence|].
    destruct (wire_two x0 forged) as (r & Er). rewrite Er in Z. cbn [concat] in Z. destruct d; discriminate Z.
  - eauto.
Qed.
Lemma forged_answer lib s k timeout chunks c t a b d n tag r bs :
  in_use s -> command_wf k -> command_bytes k <= 255 -> 0 < timeout -> c_tag k = Some tag ->
  sent_ok false (mkSent n 1 bs (MCmd (reply_seen tag r))) -> re_eop r = true -> is_byte c -> is_byte t ->
  is_payload (a ++ frame n 1 bs ++ b) -> no_c0 b ->
  broken (front c t a (frame n 1 bs ++ b)) d -> concat chunks = d ++ frame n 1 bs ++ b ->
  snd (exchange lib s (mkExchange k timeout [] chunks)) = Ok [MCmd (reply_seen tag r)].
Proof.
  intros U W L T Et O Eo Bc Bt P Nb Br E.
  set (m := mkSent n 1 bs (MCmd (reply_seen tag r))) in *.
  assert (Ew : wire [m] = frame n 1 bs) by (cbn [wire flat_map]; apply app_nil_r).
  rewrite <- Ew in P, Br, E.
  pose proof (modem_forged lib s k timeout chunks c t a [m] b [] d U W L T (Forall_cons _ O (Forall_nil _)) (Forall_nil _) Bc Bt P Nb
    ltac:(discriminate) Br ltac:(change (wire []) with (@nil Z); rewrite (app_nil_r b); exact E)) as M.
  cbv zeta in M. change (exchange lib s (mkExchange k timeout ([m] ++ []) chunks)) with (exchange lib s (mkExchange k timeout [] chunks)) in M.
  destruct (exchange lib s (mkExchange k timeout [] chunks)) as [s2 v]. cbn [snd]. destruct M as [-> _]. f_equal.
  assert (R : replies (mkExchange k timeout ([m] ++ []) chunks) = [MCmd (reply_seen tag r)]).
  { unfold replies, pick. cbn [x_traffic x_command app delivered map m s_type s_msg filter].
    unfold is_reply. cbn [fst snd reply_seen c_tag]. rewrite Et. cbn [same_tag]. rewrite Z.eqb_refl. reflexivity. }
  unfold expected. rewrite R. cbn [existsb ends_execution reply_seen c_completed]. rewrite Eo. reflexivity.
Qed.

(** ** Content of a file *)
Lemma content_ser id content : is_byte id -> Forall is_byte content -> content <> [] -> zlen content <= 250 ->
  command_ser (file_content id content) = Ok (content_head id content ++ content).
Proof.
  intros Bi F N L. assert (0 < zlen content) by (destruct content; [congruence|unfold zlen; cbn [length]; lia]).
  unfold command_ser, file_content, content_head. cbn [c_generate c_tag c_status c_actions map rconcat].
  unfold action_ser. cbn [a_kind a_op op_code op_ser]. unfold data_len. cbn [d_length len_value d_data].
  replace (zlen content =? 0) with false by lia.
  unfold data_ser, offset_ser. cbn [d_offset d_length d_data off_id off_offset]. rewrite LParse.yields_ok by exact F.
  rewrite (LParse.yield1_ok id) by exact Bi.
  assert (Ls : length_ser (mkLength (zlen content)) = Ok (if zlen content <? 64 then [zlen content] else [64; zlen content])).
  { unfold length_ser. cbn [len_value]. destruct (zlen content <? 64) eqn:E64.
    - replace (63 <? zlen content) with false by lia. replace (16383 <? zlen content) with false by lia. replace (4194303 <? zlen content) with false by lia.
      cbn [Z.eqb Pos.eqb Z.sub Z.shiftl]. apply LParse.yield1_ok. lia.
    - replace (63 <? zlen content) with true by lia. replace (16383 <? zlen content) with false by lia. replace (4194303 <? zlen content) with false by lia.
      change (2 =? 1) with false. cbv iota. rewrite LParse.pack_be_ok by (change (2 ^ (8 * Z.of_nat 4)) with 4294967296; lia).
      replace (be_bytes 4 (zlen content)) with [0; 0; 0; zlen content].
      + change (2 =? 2) with true. cbn [rbind skipn]. rewrite (LParse.yields_ok [zlen content]) by (constructor; [unfold is_byte; lia | constructor]). reflexivity.
      + cbn [be_bytes]. change (2 ^ (8 * Z.of_nat 3)) with 16777216. change (2 ^ (8 * Z.of_nat 2)) with 65536.
        change (2 ^ (8 * Z.of_nat 1)) with 256. change (2 ^ (8 * Z.of_nat 0)) with 1. repeat f_equal; lia. }
  rewrite Ls. unfold rapp. cbn [rbind]. change (length_ser (mkLength 0)) with (Ok [0]). cbn [rbind app].
  change (yield1 (flag6 false (flag7 false 0) + 32)) with (Ok [32]). cbn [rbind app]. rewrite app_nil_r. reflexivity.
Qed.
Lemma content_wf id content : is_byte id -> Forall is_byte content -> content <> [] -> zlen content <= 250 ->
  command_wf (file_content id content).
Proof.
  intros Bi F N L. unfold command_wf, file_content. cbn [c_actions c_status c_generate c_tag]. refine (conj _ (conj eq_refl (conj eq_refl _))); [|discriminate].
  constructor; [|constructor]. unfold action_wf, op_wf, data_wf, off_wf, len_wf, len_max. cbn [a_kind a_op d_offset off_id off_offset d_length d_data len_value].
  unfold is_byte in Bi. pose proof (zlen_nonneg content). repeat split; try lia; try assumption; try reflexivity; try discriminate.
Qed.
Lemma content_sent id content : is_byte id -> Forall is_byte content -> content <> [] -> zlen content <= 250 ->
  command_ser (file_content id content) = Ok (content_head id content ++ content)
  /\ is_payload (content_head id content ++ content)
  /\ forall c, is_byte c ->
      sent_ok false (mkSent c 1 (content_head id content ++ content) (MCmd (command_received (file_content id content)))).
Proof.
  intros Bi F N L. pose proof (content_ser id content Bi F N L) as S. pose proof (content_wf id content Bi F N L) as W.
  assert (B : command_bytes (file_content id content) <= 255).
  { destruct (command_emits _ W) as (bs & E & _ & Eb). rewrite S in E.
    assert (Ez : content_head id content ++ content = bs) by (injection E; auto). clear E. unfold command_bytes. rewrite <- Eb, <- Ez.
    assert (Lz : zlen (content_head id content ++ content) <= 255).
    { rewrite zlen_app. assert (zlen (content_head id content) <= 5); [|lia]. unfold content_head. destruct (zlen content <? 64); cbn; lia. }
    revert Lz. generalize (content_head id content ++ content). intros z Lz. unfold zlen in *. rewrite bytes_bits_length. lia. }
  destruct (transmits_command _ W B) as (bs & E & P & K). rewrite S in E. injection E as <-.
  refine (conj S (conj P _)). intros c Bc. unfold sent_ok. cbn [s_counter s_type s_payload s_msg].
  refine (conj Bc (conj _ (conj P K))). unfold is_byte. lia.
Qed.
Lemma undamaged lib p chunks c id forged traffic : Forall (sent_ok false) forged -> forged <> [] -> zlen (wire forged) <= 250 ->
  is_byte c -> is_byte id -> Forall (sent_ok false) traffic -> sp_skip p = false -> is_byte (sp_down p) ->
  sp_buf p ++ concat chunks = frame c 1 (content_head id (wire forged) ++ wire forged) ++ wire traffic -> chunks <> [] ->
  exists p', feeds lib p chunks p' ((1, MCmd (command_received (file_content id (wire forged)))) :: delivered traffic) []
    /\ sp_buf p' = [].
Proof.
  intros F N L Bc Bi Ft S D E Hn.
  destruct (content_sent id (wire forged) Bi) as (_ & _ & K); [eapply wire_bytes; exact F | | exact L |].
  { intros W. apply wire_nil in W. exact (N W). }
  set (m := mkSent c 1 (content_head id (wire forged) ++ wire forged) (MCmd (command_received (file_content id (wire forged))))) in *.
  destruct (LSerialProps.traffic lib chunks p (m :: traffic)) as (p' & H & B & _); try assumption.
  - rewrite S. constructor; [apply K; exact Bc | exact Ft].
  - exists p'. exact (conj H B).
Qed.

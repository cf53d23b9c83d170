(** Lemmas for C86 *)
From Coq Require Import String ZifyBool.
From Verif Require Import Bits MBase MCt MSp MOperands MAlp MSerial SCodec SAlp SCommand LCommand SSerial LSend LSerialProps MHexTool SHexTool LHexTool MAsDict SGenerate.
From Verif Require Import LPush.
Open Scope list_scope.
Open Scope Z_scope.

Lemma hex_char_ok n : 0 <= n <= 15 -> digit_for n (hex_char n) /\ lower (hex_char n).
Proof. unfold digit_for, lower, hex_char. intros H. destruct (n <? 10) eqn:E; lia. Qed.
Lemma hexlify_ok bs : Forall is_byte bs -> lower_hex bs (hexlify bs).
Proof.
  unfold lower_hex. induction 1 as [|b l B F [IH1 IH2]]; [split; constructor|]. unfold is_byte in B.
  change (hexlify (b :: l)) with (hex_char (b / 16) :: hex_char (b mod 16) :: hexlify l).
  destruct (hex_char_ok (b / 16)) as [H1 H2]; [split; [apply Z.div_pos; lia | assert (b / 16 < 16) by (apply Z.div_lt_upper_bound; lia); lia]|].
  destruct (hex_char_ok (b mod 16)) as [L1 L2]; [pose proof (Z.mod_pos_bound b 16); lia|].
  split; [|repeat (constructor; [assumption|]); assumption].
  rewrite (Z.div_mod b 16) at 1 by lia. constructor; assumption.
Qed.
Lemma lower_written bs text : lower_hex bs text -> written bs text.
Proof.
  intros [D _]. exists text, [], text, []. refine (conj D (conj _ (conj (Forall_nil _) (conj (Forall_nil _) _)))).
  - clear D. induction text as [|c t IH]; constructor. exact IH.
  - rewrite app_nil_r. reflexivity.
Qed.

Lemma output_ok d c bs : command_ser c = Ok bs -> is_payload bs ->
  exists text, output_serial_frame d c
    = ([Heading d; Text "command:"; Dict (as_dict (o_command c)); Text "serial frame:"; HexText text], Ok tt)
  /\ lower_hex (frame 0 1 bs) text.
Proof.
  intros E P. unfold output_serial_frame. rewrite E, build_ok by (first [apply P | unfold is_byte; cbn; lia]).
  eexists. split; [reflexivity|]. apply hexlify_ok, frame_bytes; [unfold is_byte; cbn; lia | unfold is_byte; lia | exact P].
Qed.
Lemma output_section d c : command_wf c -> command_bytes c <= 255 ->
  exists bs lines, output_serial_frame d c = (lines, Ok tt) /\ sections [(d, c, bs)] lines.
Proof.
  intros W L. destruct (transmits_command c W L) as (bs & E & P & _).
  destruct (output_ok d c bs E P) as (text & O & X). exists bs. eexists. split; [exact O|].
  constructor; [exact E | exact X | constructor].
Qed.
Lemma output_refused d c : (forall e, command_ser c = Err e -> output_serial_frame d c = ([Heading d], Err e))
  /\ forall bs, command_ser c = Ok bs -> 255 < zlen bs -> output_serial_frame d c = ([Heading d], Err ValueError).
Proof.
  split.
  - intros e E. unfold output_serial_frame. rewrite E, build_err. reflexivity.
  - intros bs E L. unfold output_serial_frame. rewrite E, build_long; [reflexivity | unfold is_byte; cbn; lia | exact L].
Qed.

Lemma digits_of_inj bs bs' cs : digits_of bs cs -> digits_of bs' cs -> bs = bs'.
Proof. intros A B. apply unhex_iff in A, B. congruence. Qed.
Lemma written_inj bs bs' text : written bs text -> written bs' text -> bs = bs'.
Proof. intros A B. apply tool_bytes_iff in A, B. congruence. Qed.
Lemma printed_text c text : command_wf c -> command_bytes c <= 255 -> printed c text ->
  exists bs, command_ser c = Ok bs /\ is_payload bs /\ written (frame 0 1 bs) text.
Proof.
  intros W L (d & I). destruct (transmits_command c W L) as (bs & E & P & _).
  destruct (output_ok d c bs E P) as (t & O & X). rewrite O in I. cbn [fst] in I. exists bs.
  refine (conj E (conj P _)). apply lower_written.
  destruct I as [I|[I|[I|[I|[I|[]]]]]]; try discriminate I. injection I as <-. exact X.
Qed.

(** the frames of several commands, each made by its own parser *)
Lemma separate_traffic cs : Forall (fun c => command_wf c /\ command_bytes c <= 255) cs ->
  forall fs, Forall2 (fun c f => exists text, printed c text /\ written f text) cs fs ->
  exists l, Forall (sent_ok false) l /\ concat fs = wire l
    /\ SSerial.delivered l = map (fun c => (1, MCmd (command_received c))) cs /\ map s_counter l = repeat 0 (length cs).
Proof.
  induction 1 as [|c cs [W L] F IH]; intros fs H; inversion H as [|? f ? fs' (text & Pr & Wr) H']; subst.
  - exists []. repeat split. constructor.
  - destruct (IH fs' H') as (l & S & C & D & K).
    destruct (printed_text c text W L Pr) as (bs & E & P & X). rewrite (written_inj _ _ _ Wr X).
    destruct (transmits_command c W L) as (bs' & E' & P' & Ca). assert (bs' = bs) as -> by congruence.
    exists (mkSent 0 1 bs (MCmd (command_received c)) :: l). cbn [concat]. rewrite C.
    refine (conj _ (conj eq_refl (conj _ _))).
    + constructor; [|exact S]. unfold sent_ok. cbn [s_counter s_type s_payload s_msg].
      refine (conj _ (conj _ (conj P' Ca))); unfold is_byte; lia.
    + cbn [SSerial.delivered map s_type s_msg]. unfold SSerial.delivered in D. rewrite D. reflexivity.
    + cbn [map s_counter length repeat]. rewrite K. reflexivity.
Qed.
Lemma jumps_zeros d n : is_byte d -> jumps d (repeat 0 n) = match n with O => 0 | S k => Z.of_nat k + (if d =? 255 then 0 else 1) end.
Proof.
  unfold is_byte. destruct n as [|n]; [reflexivity|]. intros B. cbn [repeat jumps].
  assert (0 =? counter_after d = (d =? 255)) as ->.
  { unfold counter_after. destruct (d =? 255) eqn:E; [assert (d = 255) as -> by lia; reflexivity|].
    rewrite Z.mod_small by lia. lia. }
  assert (J : forall k, jumps 0 (repeat 0 k) = Z.of_nat k).
  { induction k as [|k IH]; [reflexivity|]. cbn [repeat jumps]. rewrite IH. change (0 =? counter_after 0) with false. cbv iota. lia. }
  rewrite J. lia.
Qed.
Lemma separate lib p cs fs chunks : Forall (fun c => command_wf c /\ command_bytes c <= 255) cs ->
  Forall2 (fun c f => exists text, printed c text /\ written f text) cs fs ->
  sp_skip p = false -> sp_buf p = [] -> is_byte (sp_down p) -> concat chunks = concat fs -> chunks <> [] ->
  exists p', feeds lib p chunks p' (map (fun c => (1, MCmd (command_received c))) cs) [] /\ sp_buf p' = []
    /\ sp_errs p' = sp_errs p
       + (if (length cs =? 0)%nat then 0 else Z.of_nat (length cs) - (if sp_down p =? 255 then 1 else 0)).
Proof.
  intros F H S B D E N. destruct (separate_traffic cs F fs H) as (l & Fl & W & De & K).
  destruct (traffic lib chunks p l) as (p' & Fe & Bu & Er & _); try assumption.
  - rewrite S. exact Fl.
  - rewrite B, E. exact W.
  - exists p'. rewrite De in Fe. refine (conj Fe (conj Bu _)). rewrite Er, K, jumps_zeros by exact D.
    destruct (length cs) as [|k]; [reflexivity|]. cbn [Nat.eqb]. destruct (sp_down p =? 255); lia.
Qed.
Lemma separate_tool lib id c text : command_wf c -> command_bytes c <= 255 -> printed c text ->
  exists r, tool lib T_serial id text = Ok (PrMessages r)
    /\ pr_msgs r = [(1, MCmd (command_received c))] /\ pr_errors r = [].
Proof.
  intros W L Pr. destruct (printed_text c text W L Pr) as (bs & E & P & X).
  assert (Sd : sends (new_parser false) (map command_ser [c]) [frame 0 1 bs] (fst (build_serial_frame (new_parser false) (Ok bs)))).
  { cbn [map]. rewrite E. econstructor; [|constructor].
    rewrite build_ok by (first [apply P | unfold is_byte; cbn; lia]). reflexivity. }
  refine (tool_serial lib id text [c] (new_parser false) _ _ _ _ Sd _).
  - unfold is_byte; cbn; lia.
  - constructor; [split; assumption | constructor].
  - cbn [concat]. rewrite app_nil_r. exact X.
Qed.

(** ** The six messages *)
Definition msg_conf (m : ResponseMode) (ac : Z) (t : IdType) (i : AddrId) (d : CT) : Operation :=
  Forward (mkIC IF_D7ASP (Some (CfgD7 (mkConf (mkQoS m RETRY_NO false false) d (mkAddr ac t i NLS_NONE))))).
Definition cmd (r : Z) (f o : Operation) : Command :=
  mkCommand [mkAction (Regular false false) f; mkAction (Regular false false) o] None true (Some r) true false None.
Definition ret10 : Operation := mk_return_file_data (mkData (mkOffset 64 (mkLength 0)) (mkLength 10) one_to_ten).
Definition the_command (i : nat) (r : Z) : Command :=
  match i with
  | 0%nat => cmd r (msg_conf RESP_ALL 0 UID (IdInt 2656824718681607041) (mkCT 0 0)) ret10
  | 1%nat => cmd r (msg_conf RESP_ALL 2 NOID IdNone (mkCT 0 0)) ret10
  | 2%nat => cmd r (msg_conf RESP_NO 1 NOID IdNone (mkCT 0 0)) ret10
  | 3%nat => cmd r (msg_conf RESP_ANY 2 UID (IdInt 16045690984503098046) (mkCT 0 0)) ret10
  | 4%nat => cmd r (msg_conf RESP_ANY 1 NOID IdNone (mkCT 0 0)) (ReadFileData (mkDataRequest (mkOffset 0 (mkLength 0)) (mkLength 8)))
  | _ => cmd r (msg_conf RESP_ANY 33 UID (IdInt 16141505795915987087) (mkCT 2 19))
               (WriteFileData (mkData (mkOffset 64 (mkLength 0)) (mkLength 1) [0]))
  end.
Lemma ret10_eq : ret10 = ReturnFileData (mkData (mkOffset 64 (mkLength 0)) (mkLength 10) one_to_ten) None.
Proof. reflexivity. Qed.
Lemma the_ser i r : is_byte r -> (i < 6)%nat -> command_ser (the_command i r) = Ok (payload_of i r).
Proof.
  intros B H. do 6 (destruct i as [|i]; [apply (tagged_ser r _ _ B); vm_compute; reflexivity|]). lia.
Qed.
Lemma the_payload i r : is_byte r -> is_payload (payload_of i r).
Proof.
  intros B. do 5 (destruct i as [|i]; [split; [|vm_compute; discriminate]; cbn; repeat (constructor; [first [exact B | unfold is_byte; lia]|]); constructor|]).
  split; [|vm_compute; discriminate]; cbn; repeat (constructor; [first [exact B | unfold is_byte; lia]|]); constructor.
Qed.
Lemma message_eq rnd : [message1 (rnd 0%nat); message2 (rnd 1%nat); message3 (rnd 2%nat); message4 (rnd 3%nat); message5 (rnd 4%nat); message6 (rnd 5%nat)]
  = map (fun i => Ok (the_command i (rnd i))) (seq 0 6).
Proof. vm_compute. reflexivity. Qed.
Lemma cmd_wf r m ac t n d o : is_byte r -> conf_wf (mkConf (mkQoS m RETRY_NO false false) d (mkAddr ac t n NLS_NONE)) ->
  addr_stable (mkAddr ac t n NLS_NONE) -> action_wf (mkAction (Regular false false) o) -> plain (mkAction (Regular false false) o) = true ->
  command_wf (cmd r (msg_conf m ac t n d) o).
Proof.
  intros R W S A P. refine (conj _ (conj _ (conj eq_refl _))); cbn [c_actions c_generate c_tag cmd].
  - constructor; [|constructor; [exact A | constructor]]. unfold action_wf, op_wf, msg_conf. cbn [a_op a_kind]. exact (conj W (conj eq_refl S)).
  - cbn [forallb]. rewrite P. reflexivity.
  - intros _. exists r. exact (conj eq_refl R).
Qed.
Lemma the_wf i r : is_byte r -> command_wf (the_command i r).
Proof.
  intros B. destruct i as [|[|[|[|[|i]]]]]; (apply cmd_wf; [exact B | | | | reflexivity]).
  all: try (unfold conf_wf, ct_wf, addr_wf; cbn; lia).
  all: try (unfold addr_stable; cbn; lia).
  all: rewrite ?ret10_eq; unfold action_wf, op_wf, data_wf, dr_wf, off_wf, len_wf, len_max; cbn.
  all: repeat split; try lia; try reflexivity; try (unfold one_to_ten; repeat (constructor; [unfold is_byte; lia|]); constructor).
  all: discriminate.
Qed.
Lemma outputs_sections : forall l ds, length ds = length l ->
  Forall (fun cp => command_ser (fst cp) = Ok (snd cp) /\ is_payload (snd cp)) l ->
  exists lines, outputs (combine ds (map (fun cp => Ok (fst cp)) l)) = (lines, Ok tt)
    /\ sections (triples ds (map fst l) (map snd l)) lines.
Proof.
  induction l as [|[c p] l IH]; intros [|d ds] L F; try discriminate L.
  - exists []. split; [reflexivity | constructor].
  - inversion F as [|? ? [E P] F']; subst. cbn [fst snd] in E, P. injection L as L. destruct (IH ds L F') as (lines & O & S).
    destruct (output_ok d c p E P) as (text & O1 & X).
    eexists. split; [cbn [combine map fst outputs]; rewrite O1, O; reflexivity|].
    cbn [map fst snd triples app]. constructor; assumption.
Qed.
Lemma program rnd : (forall i, is_byte (rnd i)) ->
  exists lines cs, generate_messages rnd = (lines, Ok tt) /\ length cs = 6%nat /\ Forall command_wf cs
    /\ sections (triples titles cs (payloads rnd)) lines.
Proof.
  intros B. set (l := map (fun i => (the_command i (rnd i), payload_of i (rnd i))) (seq 0 6)).
  destruct (outputs_sections l titles) as (lines & O & S); [reflexivity| |].
  - apply Forall_forall. intros x I. apply in_map_iff in I. destruct I as (i & <- & I). apply in_seq in I. cbn [fst snd].
    split; [apply the_ser; [apply B | lia] | apply the_payload, B].
  - exists lines, (map (fun i => the_command i (rnd i)) (seq 0 6)). refine (conj _ (conj eq_refl (conj _ S))).
    + rewrite <- O. unfold l. rewrite map_map. cbn [fst]. rewrite <- message_eq. reflexivity.
    + apply Forall_forall. intros x I. apply in_map_iff in I. destruct I as (i & <- & I). apply the_wf, B.
Qed.
Lemma outputs_app : forall pre rest lines, outputs pre = (lines, Ok tt) ->
  outputs (pre ++ rest) = (lines ++ fst (outputs rest), snd (outputs rest)).
Proof.
  induction pre as [|[d [c|e]] pre IH]; intros rest lines O; cbn [outputs app] in *.
  - injection O as <-. destruct (outputs rest). reflexivity.
  - destruct (output_serial_frame d c) as [l [[]|e]]; [|discriminate O].
    destruct (outputs pre) as [more r]. injection O as <- ->. rewrite (IH rest more eq_refl), app_assoc. reflexivity.
  - discriminate O.
Qed.
Lemma stops pre lines : outputs pre = (lines, Ok tt) -> forall d rest,
  (forall e, outputs (pre ++ (d, Err e) :: rest) = (lines, Err e))
  /\ (forall c e, command_ser c = Err e -> outputs (pre ++ (d, Ok c) :: rest) = (lines ++ [Heading d], Err e))
  /\ (forall c payload, command_ser c = Ok payload -> 255 < zlen payload ->
        outputs (pre ++ (d, Ok c) :: rest) = (lines ++ [Heading d], Err ValueError)).
Proof.
  intros O d rest. refine (conj _ (conj _ _)); intros; rewrite (outputs_app _ _ _ O); cbn [outputs].
  - cbn [fst snd]. rewrite app_nil_r. reflexivity.
  - rewrite (proj1 (output_refused d c) e H). reflexivity.
  - rewrite (proj2 (output_refused d c) payload H H0). reflexivity.
Qed.

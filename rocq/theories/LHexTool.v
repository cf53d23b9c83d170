(** Lemmas for C65 *)
From Coq Require Import ZifyBool.
From Verif Require Import MBase MSysFiles MAlp MSerial MDll SCodec SAlp SCommand LCommand SSerial LSerialProps SDll SContent LContent LFiles MHexTool SHexTool.

Lemma is_space_white c : is_space c = true <-> white c.
Proof. unfold is_space, white. lia. Qed.
Lemma hex_digit_for n c : hex_digit c = Some n <-> digit_for n c.
Proof.
  unfold hex_digit, digit_for. split.
  - destruct ((48 <=? c) && (c <=? 57)) eqn:A; [intros [= <-]; lia|].
    destruct ((97 <=? c) && (c <=? 102)) eqn:B; [intros [= <-]; lia|].
    destruct ((65 <=? c) && (c <=? 70)) eqn:C; [intros [= <-]; lia|]. discriminate.
  - intros H. destruct ((48 <=? c) && (c <=? 57)) eqn:A; [f_equal; lia|].
    destruct ((97 <=? c) && (c <=? 102)) eqn:B; [f_equal; lia|].
    destruct ((65 <=? c) && (c <=? 70)) eqn:C; [f_equal; lia|]. lia.
Qed.
Lemma digit_not_white n c : digit_for n c -> ~ white c.
Proof. unfold digit_for, white. lia. Qed.
Lemma digits_nonwhite bs cs : digits_of bs cs -> Forall (fun c => ~ white c) cs.
Proof. induction 1; constructor; [eapply digit_not_white; eassumption|]. constructor; [eapply digit_not_white; eassumption | assumption]. Qed.

Fixpoint pairs_ind (Q : list Z -> Prop) (H0 : Q []) (H1 : forall a, Q [a]) (H2 : forall a b r, Q r -> Q (a :: b :: r)) (l : list Z) : Q l :=
  match l with
  | [] => H0
  | [a] => H1 a
  | a :: b :: r => H2 a b r (pairs_ind Q H0 H1 H2 r)
  end.
Lemma unhex_iff l : forall bs, unhex l = Ok bs <-> digits_of bs l.
Proof.
  induction l as [| a | a b r IH] using pairs_ind; intros bs.
  - split; [intros [= <-]; constructor | inversion 1; reflexivity].
  - split; [discriminate | inversion 1].
  - cbn [unhex]. split.
    + destruct (hex_digit a) as [x|] eqn:A; [|discriminate]. destruct (hex_digit b) as [y|] eqn:B; [|discriminate].
      destruct (unhex r) as [t|] eqn:R; cbn [rbind]; [|discriminate]. intros [= <-].
      constructor; [apply hex_digit_for, A | apply hex_digit_for, B | apply IH; reflexivity].
    + intros H. inversion H as [| hi lo ch cl bs' cs A B C]; subst.
      apply hex_digit_for in A, B. apply IH in C. rewrite A, B, C. reflexivity.
Qed.
Lemma unhex_err l e : unhex l = Err e -> e = TypeError.
Proof.
  induction l as [| a | a b r IH] using pairs_ind; cbn [unhex]; [discriminate | congruence |].
  destruct (hex_digit a); [|congruence]. destruct (hex_digit b); [|congruence].
  destruct (unhex r); cbn [rbind]; [discriminate | exact IH].
Qed.

Notation nonblank := (filter (fun c => negb (c =? 32))).
Lemma with_blanks_filter l : with_blanks (nonblank l) l.
Proof.
  induction l as [|c l IH]; cbn [filter]; [constructor|].
  destruct (c =? 32) eqn:E; cbn [negb]; [apply Z.eqb_eq in E as ->; constructor; exact IH | constructor; exact IH].
Qed.
Lemma filter_with_blanks d l : with_blanks d l -> Forall (fun c => ~ white c) d ->
  nonblank l = d /\ Forall (fun c => white c -> c = 32) l.
Proof.
  induction 1 as [| d l W IH | c d l W IH]; intros F.
  - split; [reflexivity | constructor].
  - destruct (IH F) as [E G]. cbn. split; [exact E | constructor; auto].
  - inversion F as [|? ? N F']; subst. destruct (IH F') as [E G]. cbn [filter].
    assert (c =? 32 = false) as -> by (unfold white in N; lia). cbn [negb]. split; [congruence | constructor; [tauto | exact G]].
Qed.

Lemma lstrip_white b x : Forall white b -> lstrip (b ++ x) = lstrip x.
Proof. induction 1 as [|c b W F IH]; [reflexivity|]. cbn. apply is_space_white in W. rewrite W. exact IH. Qed.
Lemma lstrip_all b : Forall white b -> lstrip b = [].
Proof. intros F. rewrite <- (app_nil_r b), lstrip_white by exact F. reflexivity. Qed.
Lemma lstrip_split l : exists b, Forall white b /\ l = b ++ lstrip l.
Proof.
  induction l as [|c l (b & F & E)]; [exists []; auto|]. cbn [lstrip]. destruct (is_space c) eqn:S.
  - exists (c :: b). split; [constructor; [apply is_space_white, S | exact F] | cbn; congruence].
  - exists []. auto.
Qed.
Lemma lstrip_app x a : Forall white a -> lstrip (x ++ a) = lstrip x ++ a \/ (lstrip (x ++ a) = [] /\ lstrip x = []).
Proof.
  intros F. induction x as [|c x IH]; [right; split; [apply lstrip_all, F | reflexivity]|].
  cbn [app lstrip]. destruct (is_space c); [exact IH | left; reflexivity].
Qed.
Lemma Forall_rev' {A} (Q : A -> Prop) l : Forall Q l -> Forall Q (rev l).
Proof. apply Forall_rev. Qed.
Lemma strip_trim b m a : Forall white b -> Forall white a -> strip (b ++ m ++ a) = strip m.
Proof.
  intros B A. unfold strip. rewrite lstrip_white by exact B.
  destruct (lstrip_app m a A) as [E | [E1 E2]].
  - rewrite E, rev_app_distr, lstrip_white by (apply Forall_rev, A). reflexivity.
  - rewrite E1, E2. reflexivity.
Qed.
Lemma strip_split l : exists b a, Forall white b /\ Forall white a /\ l = b ++ strip l ++ a.
Proof.
  destruct (lstrip_split l) as (b & B & E). destruct (lstrip_split (rev (lstrip l))) as (a & A & E').
  exists b, (rev a). split; [exact B|]. split; [apply Forall_rev, A|].
  apply (f_equal (@rev Z)) in E'. rewrite rev_involutive, rev_app_distr in E'. unfold strip. rewrite <- E'. exact E.
Qed.
Lemma filter_rev {A} (f : A -> bool) l : filter f (rev l) = rev (filter f l).
Proof.
  induction l as [|x l IH]; [reflexivity|]. cbn. rewrite filter_app, IH. cbn. destruct (f x); cbn; [reflexivity | apply app_nil_r].
Qed.
Lemma nonblank_lstrip l : Forall (fun c => white c -> c = 32) l -> nonblank (lstrip l) = nonblank l.
Proof.
  induction 1 as [|c l W F IH]; [reflexivity|]. cbn [lstrip]. destruct (is_space c) eqn:S; [|reflexivity].
  rewrite IH. apply is_space_white, W in S. subst. reflexivity.
Qed.
Lemma nonblank_strip l : Forall (fun c => white c -> c = 32) l -> nonblank (strip l) = nonblank l.
Proof.
  intros F. unfold strip. rewrite filter_rev, nonblank_lstrip.
  - rewrite filter_rev, rev_involutive. apply nonblank_lstrip, F.
  - apply Forall_rev. destruct (lstrip_split l) as (b & _ & E). rewrite E in F. apply Forall_app in F. tauto.
Qed.
Lemma tool_bytes_iff text bs : tool_bytes text = Ok bs <-> written bs text.
Proof.
  unfold tool_bytes, written. rewrite unhex_iff. split.
  - intros D. destruct (strip_split text) as (b & a & B & A & E).
    exists (nonblank (strip text)), b, (strip text), a. auto using with_blanks_filter.
  - intros (d & b & m & a & D & W & B & A & ->). rewrite strip_trim by assumption.
    destruct (filter_with_blanks d m W (digits_nonwhite _ _ D)) as [E F]. rewrite nonblank_strip, E by exact F. exact D.
Qed.
Lemma tool_refuses lib t id text : (forall bs, ~ written bs text) -> tool lib t id text = Err TypeError.
Proof.
  intros N. unfold tool. destruct (tool_bytes text) as [bs|e] eqn:E.
  - apply tool_bytes_iff in E. destruct (N _ E).
  - cbn [rbind]. f_equal. eapply unhex_err; exact E.
Qed.
Lemma tool_only_bytes bs text : written bs text -> Forall is_byte bs.
Proof.
  intros (d & _ & _ & _ & D & _). induction D as [| hi lo ch cl bs cs A B D IH]; constructor; [|exact IH].
  unfold digit_for in *. unfold is_byte. lia.
Qed.

Lemma tool_alp lib id text c bs : command_wf c -> command_ser c = Ok bs -> written bs text ->
  tool lib T_alp id text = Ok (PrCommand (command_received c)).
Proof.
  intros W S T. apply tool_bytes_iff in T. unfold tool. rewrite T. cbn [rbind].
  pose proof (command_emits c W) as E. pose proof (emits_size _ _ _ E S) as L.
  destruct E as (b & E & _ & B). rewrite S in E. injection E as <-.
  assert (zlen bs = command_bytes c) as ->.
  { unfold command_bytes, zlen. rewrite L. replace (Z.of_nat (8 * length bs)) with (Z.of_nat (length bs) * 8) by lia. rewrite Z.div_mul; lia. }
  pose proof (command_accepts c W O []) as A. rewrite app_nil_r in A. unfold stream_of. rewrite B, A by reflexivity. reflexivity.
Qed.
Lemma tool_alp_incoming lib id text ls acts bs : Forall2 incoming ls acts -> one_tag acts -> one_status acts ->
  bytes_bits bs = concat ls -> written bs text ->
  tool lib T_alp id text = Ok (PrCommand (command_of false None true acts)).
Proof.
  intros F O1 O2 B T. apply tool_bytes_iff in T. unfold tool. rewrite T. cbn [rbind].
  pose proof (incoming_command ls acts F O1 O2 O []) as A. rewrite app_nil_r in A.
  assert (zlen bs = zlen (concat ls) / 8) as ->.
  { rewrite <- B. unfold zlen. rewrite bytes_bits_length. replace (Z.of_nat (8 * length bs)) with (Z.of_nat (length bs) * 8) by lia. rewrite Z.div_mul; lia. }
  unfold stream_of. rewrite B, A by reflexivity. reflexivity.
Qed.
Lemma tool_serial lib id text commands s fs s' : is_byte (sp_up s) ->
  Forall (fun c => command_wf c /\ command_bytes c <= 255) commands -> sends s (map command_ser commands) fs s' ->
  written (concat fs) text ->
  exists r, tool lib T_serial id text = Ok (PrMessages r)
    /\ pr_msgs r = map (fun c => (1, MCmd (command_received c))) commands /\ pr_errors r = [].
Proof.
  intros B F S T. apply tool_bytes_iff in T. unfold tool. rewrite T. cbn [rbind].
  assert (Tr : Forall2 (transmits false) (map command_ser commands) (map (fun c => MCmd (command_received c)) commands)).
  { clear -F. induction F as [|a l [W L] F IH]; constructor; [apply transmits_command; assumption | exact IH]. }
  pose proof (link lib false s _ fs s' (new_parser false) _ [concat fs] S Tr B eq_refl eq_refl (app_nil_r _)) as K.
  rewrite map_map in K. specialize (K ltac:(discriminate)).
  inversion K as [| p c p1 r cs p2 ms es E1 E2]; subst. inversion E2; subst. rewrite E1. cbn [snd rbind]. exists r.
  split; [reflexivity|]. rewrite !app_nil_r in *. auto.
Qed.
Lemma wrap_parses {A} (p : P A) (g : A -> SysFile) bs x : parses p bs x -> parses (do y <- p; ret (g y)) bs (g x).
Proof. intros (s & E). exists s. unfold bindp. rewrite E. reflexivity. Qed.
Lemma tool_file_of lib text f id bs : readable f -> sys_id f = Some id -> file_ser f = Ok bs -> written bs text ->
  tool lib T_systemfile (Some id) text = Ok (PrFile f).
Proof.
  intros S I E T. apply tool_bytes_iff in T. unfold tool. rewrite T. cbn [rbind].
  assert (K : exists e, system_file id = Some e /\ 0 <= id <= 47 /\ parses (file_parse e) bs f).
  { destruct f; cbn [readable survives] in S; try contradiction; cbn [sys_id] in I; injection I as <-; cbn [file_ser] in E;
    (eexists; split; [reflexivity|]; split; [lia|]; cbn [file_parse]; apply wrap_parses).
    - destruct (uid_codec f S) as [A B]. exact (codec_parses _ _ _ _ _ A B E).
    - destruct S as (S & L6 & L7). refine (codec_parses _ _ _ _ _ (fw_emits f S) _ E). apply fw_survives; auto.
    - destruct (em_emits f S) as (b & E1 & _ & B). rewrite E in E1. injection E1 as <-. 
      unfold parses, stream_of. rewrite B. unfold em_layout. rewrite (em_accepts false f S). eauto.
    - destruct (vid_codec f S) as [A B]. exact (codec_parses _ _ _ _ _ A B E).
    - destruct (ps_codec f S) as [A B]. exact (codec_parses _ _ _ _ _ A B E).
    - destruct (dc_codec f S) as [A B]. exact (codec_parses _ _ _ _ _ A B E).
    - destruct (ds_codec f S) as [A B]. exact (codec_parses _ _ _ _ _ A B E). }
  destruct K as (e & SF & R & (s & K)). unfold tool_file. rewrite SF.
  assert ((0 <=? id) && (id <=? 47) = true) as -> by lia. cbn [rbind]. rewrite K. reflexivity.
Qed.
Definition unreadable (f : SysFile) : bool :=
  match f with F_SecKey _ | F_RootKey _ | F_UserKey _ | F_NotImpl _ _ | F_IfConfig _ => true | _ => false end.
Lemma unreadable_parse e s x : unreadable e = true -> file_parse e s <> Ok x.
Proof.
  destruct e; try discriminate; intros _ H; cbn [file_parse] in H; try discriminate H; unfold bindp in H;
    destruct (key_parse _ s) as [[k s']|] eqn:K; try discriminate; exact (key_never_parsed _ _ _ _ K).
Qed.
Definition hidden_ids : list Z := [3; 4; 7; 8; 12; 13; 14; 15; 16; 17; 18; 19; 20; 21; 22; 23; 24; 25; 26; 27; 28; 29; 30; 31; 47].
Lemma hidden_entries : forallb (fun i => match system_file i with Some e => unreadable e | None => true end) hidden_ids = true.
Proof. vm_compute. reflexivity. Qed.
Lemma tool_ids lib id text f : tool lib T_systemfile id text = Ok (PrFile f) ->
  exists i, id = Some i /\ In i shown_ids.
Proof.
  unfold tool. destruct (tool_bytes text) as [bs|]; cbn [rbind]; [|discriminate]. unfold tool_file.
  destruct id as [i|]; cbn [rbind]; [|discriminate]. intros H. exists i. split; [reflexivity|].
  destruct ((0 <=? i) && (i <=? 47)) eqn:R; cbn [rbind] in H; [|discriminate].
  destruct (in_dec Z.eq_dec i shown_ids) as [I|N]; [exact I|]. exfalso.
  assert (C : In i hidden_ids) by (unfold shown_ids in N; cbn in N; cbn; lia).
  pose proof hidden_entries as HE. rewrite forallb_forall in HE. specialize (HE i C). cbv beta in HE.
  destruct (system_file i) as [e|]; cbn [rbind] in H; [|discriminate].
  destruct (file_parse e (stream_of bs)) as [x|] eqn:E; [exact (unreadable_parse e _ x HE E) | discriminate].
Qed.
Lemma tool_frames lib (fg : bool) id text : exists e, tool lib (if fg then T_fg else T_bg) id text = Err e.
Proof.
  unfold tool. destruct (tool_bytes text) as [bs|e]; cbn [rbind]; [|eauto].
  destruct fg; match goal with |- context [snd ?x] => destruct (snd x); cbn [rbind]; eauto end.
Qed.
Lemma tool_good_frame lib (fg : bool) id text bs f : is_frame fg bs f -> written bs text ->
  tool lib (if fg then T_fg else T_bg) id text = Err ValueError.
Proof.
  intros F T. apply tool_bytes_iff in T. unfold tool. rewrite T. cbn [rbind].
  destruct bs as [|b bs].
  - destruct fg; reflexivity.
  - unfold is_frame in F. destruct fg; unfold dll_parse; cbn [app]; rewrite F; reflexivity.
Qed.
Lemma tool_case : written [180; 25; 129] [32; 66; 52; 32; 49; 57; 32; 56; 49; 10]
  /\ written [180; 25; 129] [98; 52; 49; 57; 32; 56; 49]
  /\ (forall bs, ~ written bs [98; 52; 32; 49]) /\ (forall bs, ~ written bs [98; 52; 9; 49; 57]).
Proof.
  repeat split; try (apply tool_bytes_iff; vm_compute; reflexivity);
    intros bs H; apply tool_bytes_iff in H; vm_compute in H; discriminate H.
Qed.
Lemma tool_file_numbers lib id text bs : written bs text ->
  ((forall i, id = Some i -> ~ 0 <= i <= 47) -> tool lib T_systemfile id text = Err ValueError)
  /\ (id = Some 47 -> tool lib T_systemfile id text = Err KeyError).
Proof.
  intro T. apply tool_bytes_iff in T. unfold tool. rewrite T. cbn [rbind]. unfold tool_file. split.
  - intro N. destruct id as [i|]; [|reflexivity]. specialize (N i eq_refl).
    replace ((0 <=? i) && (i <=? 47)) with false by lia. reflexivity.
  - intros ->. reflexivity.
Qed.

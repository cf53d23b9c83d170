(** Lemmas for C88 *)
From Coq Require Import ZifyBool ZifyNat.
From Verif Require Import SReport LRun LHexTool LReport.
Open Scope list_scope.
Open Scope Z_scope.
Ltac Zify.zify_post_hook ::= Z.div_mod_to_equations.

Lemma existsb_leave rs : Forall round_ok rs -> existsb is_leave rs = true <-> leaves IndexError rs.
Proof.
  intros F. rewrite existsb_exists. unfold leaves. rewrite Forall_forall in F. split; intros (r & I & H); exists r; split; try exact I.
  - destruct (F r I) as (_ & _ & _ & K). unfold is_leave in H. destruct (ro_out r); try discriminate H. congruence.
  - unfold is_leave. rewrite H. reflexivity.
Qed.
Lemma rounds_are_parse lib p x : byte_in p -> Forall is_byte x ->
  let (q, rs) := parse_rounds lib p x in
  fst (sparse lib p x) = q /\
  match snd (sparse lib p x) with
  | Ok r => pr_msgs r = messages rs /\ pr_errors r = errors rs /\ forall e, ~ leaves e rs
  | Err e => leaves e rs
  end.
Proof.
  intros F Fx. destruct (rounds_parse lib p x F Fx) as (rs & fin & cs & cr & pd & -> & -> & LV & _ & OK).
  cbn [fst snd]. split; [reflexivity|]. destruct cr.
  - apply existsb_leave; assumption.
  - cbn [pr_msgs pr_errors]. repeat split. intros e (r & I & H).
    assert (existsb is_leave rs = true) by (apply existsb_exists; exists r; split; [exact I | unfold is_leave; rewrite H; reflexivity]).
    congruence.
Qed.

Lemma tiled_concat rs : forall buf fin, tiled buf rs fin -> buf = concat (map piece rs) ++ fin.
Proof.
  induction rs as [|r rs IH]; intros buf fin T; [symmetry; exact T|].
  destruct T as (B & L & T). cbn [map concat]. rewrite <- app_assoc, <- (IH _ _ T). unfold piece. rewrite B. symmetry. apply firstn_skipn.
Qed.
Lemma tiled_nth rs : forall buf fin i r, tiled buf rs fin -> nth_error rs i = Some r ->
  buf = concat (map piece (firstn i rs)) ++ ro_buffer r /\ tiled (ro_buffer r) (skipn i rs) fin /\ skipn i rs = r :: skipn (S i) rs.
Proof.
  induction rs as [|a rs IH]; intros buf fin i r T N; [destruct i; discriminate N|]. destruct T as (B & L & T).
  destruct i as [|i]; cbn [nth_error] in N.
  - injection N as ->. rewrite B. cbn [firstn map concat skipn app]. refine (conj eq_refl (conj (conj B (conj L T)) eq_refl)).
  - destruct (IH _ _ _ _ T N) as (E & T' & S). cbn [firstn map concat]. refine (conj _ (conj T' S)).
    rewrite <- app_assoc, <- E. unfold piece. rewrite B. symmetry. apply firstn_skipn.
Qed.

(** the text *)
Lemma hex_char_digit n : 0 <= n <= 15 -> digit_for n (hex_char n).
Proof. intros H. unfold digit_for, hex_char. destruct (Z.ltb_spec n 10); [left|right]; lia. Qed.
Lemma hex_text_written bs : Forall is_byte bs -> written bs (hex_text bs).
Proof.
  intros F. exists (flat_map (fun b => [hex_char (b / 16); hex_char (b mod 16)]) bs), [], (hex_text bs), [].
  rewrite app_nil_r. refine (conj _ (conj _ (conj (Forall_nil _) (conj (Forall_nil _) eq_refl)))).
  - induction F as [|b bs B F IH]; [constructor|]. cbn [flat_map app].
    unfold is_byte in B. assert (E : b = 16 * (b / 16) + b mod 16) by lia. rewrite E at 1.
    constructor; [apply hex_char_digit; lia .. | exact IH].
  - clear F. induction bs as [|b bs IH]; [constructor|]. destruct bs as [|c bs]; [repeat constructor|].
    cbn [flat_map app]. change (hex_text (b :: c :: bs)) with (hex_char (b / 16) :: hex_char (b mod 16) :: 32 :: hex_text (c :: bs)).
    constructor. constructor. constructor. exact IH.
Qed.
Lemma hex_text_length bs : bs <> [] -> zlen (hex_text bs) = 3 * zlen bs - 1.
Proof.
  intros N. induction bs as [|b bs IH]; [congruence|]. destruct bs as [|c bs]; [reflexivity|].
  change (hex_text (b :: c :: bs)) with (hex_char (b / 16) :: hex_char (b mod 16) :: 32 :: hex_text (c :: bs)).
  specialize (IH ltac:(discriminate)). unfold zlen in *. cbn [length] in *. lia.
Qed.

Lemma reports_returned lib p x r : byte_in p -> Forall is_byte x -> snd (sparse lib p x) = Ok r ->
  reports lib p x = flat_map report (snd (parse_rounds lib p x))
  /\ map (fun r => mkPErr (rp_exn r) (rp_skipped r)) (reports lib p x) = pr_errors r.
Proof.
  intros F Fx E. unfold reports. rewrite E. split; [reflexivity|].
  pose proof (rounds_are_parse lib p x F Fx) as K. destruct (parse_rounds lib p x) as [q rs]. rewrite E in K. destruct K as (_ & _ & -> & _).
  cbn [snd]. unfold errors. clear. induction rs as [|r rs IH]; [reflexivity|].
  cbn [flat_map]. rewrite map_app, IH. f_equal. unfold report, bad. destruct (ro_out r); reflexivity.
Qed.

Lemma report_shown lib p x q rs i r e n : byte_in p -> Forall is_byte x -> parse_rounds lib p x = (q, rs) ->
  nth_error rs i = Some r -> ro_out r = Bad e n ->
  exists rp, report r = [rp] /\ rp_exn rp = e /\
  let after := concat (map piece (skipn (S i) rs)) ++ sp_buf q in
  sp_buf p ++ x = concat (map piece (firstn i rs)) ++ piece r ++ after
  /\ reports_drop rp (piece r) after.
Proof.
  intros F Fx E N O. destruct (rounds_parse lib p x F Fx) as (rs' & fin & cs & cr & pd & E' & _ & _ & T & OK).
  rewrite E in E'. injection E' as -> <-. cbn [sp_buf set_buf].
  exists (mkReport e (hex_text (ro_buffer r)) n). unfold report. rewrite O. split; [reflexivity|]. split; [reflexivity|]. cbv zeta.
  destruct (tiled_nth _ _ _ _ _ T N) as (A & T' & S). pose proof (tiled_concat _ _ _ T') as C. rewrite S in C. cbn [map concat] in C.
  assert (K : round_ok r) by (rewrite Forall_forall in OK; apply OK; eapply nth_error_In; exact N).
  destruct K as (NE & _ & FB & K). rewrite O in K. destruct K as (b & rest & EB & ->).
  rewrite <- app_assoc in C. split; [rewrite A, C; reflexivity|].
  destruct (drop_count b rest) as [D1 D2].
  assert (P : piece r ++ drop_c0 rest = b :: rest).
  { unfold piece, taken. rewrite O, EB. rewrite <- D2 at 2. apply firstn_skipn. }
  assert (Q : concat (map piece (skipn (1 + i) rs)) ++ fin = drop_c0 rest).
  { apply (app_inv_head (piece r)). change (1 + i)%nat with (Datatypes.S i). rewrite <- C, P. exact EB. }
  change (1 + i)%nat with (Datatypes.S i) in Q. rewrite Q.
  destruct (drop_c0_suffix rest) as (pre & EP & FP).
  assert (PP : piece r = b :: pre).
  { apply (app_inv_tail (drop_c0 rest)). rewrite P. cbn [app]. rewrite <- EP. reflexivity. }
  refine (conj _ (conj _ (conj _ _))); cbn [rp_skipped rp_text].
  - rewrite PP. pose proof (f_equal (@length Z) EP) as L. rewrite app_length in L. unfold zlen. cbn [length]. lia.
  - exists b, pre. split; [exact PP|]. intros I. rewrite Forall_forall in FP. exact (FP _ I eq_refl).
  - destruct (drop_c0_head rest) as [->|(w & ->)]; [left|right]; reflexivity.
  - rewrite P, <- EB. apply hex_text_written. exact FB.
Qed.

(** the rounds from some point on *)
Lemma rounds_from n : forall lib p q rs i r, rounds n lib p = (q, rs) -> nth_error rs i = Some r -> Forall is_byte (sp_buf p) -> (length (sp_buf p) <= n)%nat ->
  exists n' p', rounds n' lib p' = (q, skipn i rs) /\ sp_buf p' = ro_buffer r /\ sp_skip p' = sp_skip p
    /\ Forall is_byte (sp_buf p') /\ (length (sp_buf p') <= n')%nat.
Proof.
  induction n as [|n IH]; intros lib p q rs i r E N F L; [injection E as _ <-; destruct i; discriminate N|].
  destruct i as [|i].
  - exists (Datatypes.S n), p. refine (conj E (conj _ (conj eq_refl (conj F L)))). cbn [rounds] in E. 
    destruct (sp_buf p) as [|b0 r0] eqn:Eb; [injection E as _ <-; discriminate N|]. rewrite <- Eb in *.
    rewrite one_round_eq in E by (rewrite Eb; discriminate).
    destruct (attempt (sp_skip p) (sp_buf p)) as [o [[[t m] k]|e]]; cbv zeta in E.
    + cbn [ro_out goes_on] in E. destruct (rounds n lib _) as [q' rs']. injection E as _ <-. injection N as <-. reflexivity.
    + destruct (is_read_error lib e); [injection E as _ <-; injection N as <-; reflexivity|].
      destruct (no_args e); [injection E as _ <-; injection N as <-; reflexivity|].
      cbn [ro_out goes_on] in E. destruct (rounds n lib _) as [q' rs']. injection E as _ <-. injection N as <-. reflexivity.
  - cbn [rounds] in E. 
    destruct (sp_buf p) as [|b0 r0] eqn:Eb; [injection E as _ <-; discriminate N|]. rewrite <- Eb in *. assert (NE : sp_buf p <> []) by (rewrite Eb; discriminate). clear Eb.
    rewrite one_round_eq in E by exact NE.
    destruct (attempt (sp_skip p) (sp_buf p)) as [o [[[t m] k]|e]] eqn:A; cbv zeta in E.
    + cbn [ro_out goes_on] in E. set (p1 := set_buf _ _) in E. destruct (rounds n lib p1) as [q' rs'] eqn:ER. injection E as -> <-.
      cbn [nth_error] in N. pose proof (got_shorter _ _ _ _ _ _ F NE A) as K.
      destruct (IH lib p1 q rs' i r ER N) as (n' & p' & G & B & S & FB & LB).
      { apply skipn_bytes. exact F. } { cbn [p1 sp_buf set_buf]. rewrite skipn_length. lia. }
      exists n', p'. refine (conj G (conj B (conj _ (conj FB LB)))). rewrite S. cbn [p1 sp_skip set_buf]. apply counters_skip.
    + destruct (is_read_error lib e); [injection E as _ <-; destruct i; discriminate N|].
      destruct (no_args e); [injection E as _ <-; destruct i; discriminate N|].
      cbn [ro_out goes_on] in E. set (p1 := set_buf _ _) in E. destruct (rounds n lib p1) as [q' rs'] eqn:ER. injection E as -> <-.
      cbn [nth_error] in N. pose proof (skip_bad_shorter (sp_buf p) NE) as K.
      destruct (IH lib p1 q rs' i r ER N) as (n' & p' & G & B & S & FB & LB).
      { apply skip_bad_bytes. exact F. } { cbn [p1 sp_buf set_buf]. lia. }
      exists n', p'. refine (conj G (conj B (conj _ (conj FB LB)))). rewrite S. cbn [p1 sp_skip set_buf]. apply counters_skip.
Qed.

Lemma nothing_leaves rs : Forall round_ok rs -> (forall e, ~ leaves e rs) -> existsb is_leave rs = false.
Proof.
  intros OK L. destruct (existsb is_leave rs) eqn:E; [|reflexivity]. exfalso. apply (L IndexError). apply existsb_leave; assumption.
Qed.
Lemma reproduced lib p x q rs i r e n id : byte_in p -> Forall is_byte x -> sp_skip p = false ->
  parse_rounds lib p x = (q, rs) -> (forall e, ~ leaves e rs) -> nth_error rs i = Some r -> ro_out r = Bad e n ->
  exists res, tool lib T_serial id (hex_text (ro_buffer r)) = Ok (PrMessages res)
    /\ pr_msgs res = messages (skipn i rs) /\ pr_errors res = errors (skipn i rs) /\ hd_error (pr_errors res) = Some (mkPErr e n).
Proof.
  intros F Fx SK E NL N O. unfold byte_in in F.
  assert (Fa : Forall is_byte (sp_buf p ++ x)) by (apply Forall_app; auto).
  destruct (rounds_parse lib p x F Fx) as (rs' & fin & cs & cr & pd & E' & _ & LV & T & OK).
  rewrite E in E'. injection E' as Q ->.
  unfold parse_rounds in E. cbv zeta in E. 
  destruct (rounds_from _ _ _ _ _ _ _ E N Fa (Nat.le_refl _)) as (n' & p' & G & B & S & FB & LB).
  destruct (runs_total lib (sp_skip p') _ _ FB (Nat.le_refl _)) as (ms & es & cs' & pd' & cr' & fin' & R).
  destruct (rounds_runs _ _ _ _ _ _ _ _ _ R n' p' eq_refl eq_refl FB LB) as (rs2 & G2 & M & ER & LV2 & _ & _).
  rewrite G in G2. injection G2 as _ <-.
  assert (CR : cr' = false).
  { rewrite <- LV2. destruct (existsb is_leave (skipn i rs')) eqn:X; [|reflexivity]. exfalso.
    apply existsb_exists in X. destruct X as (y & I & H).
    unfold is_leave in H. destruct (ro_out y) eqn:Y; try discriminate H. apply (NL e0). exists y. split; [|exact Y].
    rewrite <- (firstn_skipn i rs'). apply in_or_app. right. exact I. }
  rewrite CR in R. cbn [set_buf sp_skip] in S. rewrite S, SK, B in R. rewrite B in FB.
  exists (mkPR ms pd' (8 * zlen fin') es). split.
  - unfold tool. rewrite (proj2 (tool_bytes_iff _ _) (hex_text_written _ FB)). cbn [rbind].
    pose proof (sparse_runs lib (new_parser false) (ro_buffer r) ms es cs' pd' false fin') as X. cbn [sp_buf sp_skip new_parser app] in X.
    rewrite (X (Forall_nil _) FB R). reflexivity.
  - cbn [pr_msgs pr_errors]. rewrite <- M, <- ER. refine (conj eq_refl (conj eq_refl _)).
    destruct (tiled_nth _ _ _ _ _ T N) as (_ & _ & ->). cbn [errors flat_map]. unfold bad at 1. rewrite O. reflexivity.
Qed.

(** what the modem logs *)
Lemma modem_text lib p b r : In r (modem_reports lib p [b]) -> rp_text r = [hex_char (b / 16); hex_char (b mod 16)].
Proof. unfold modem_reports. rewrite in_map_iff. intros (e & <- & _). reflexivity. Qed.

Lemma prefix_waits c t h l payload x y skip : is_byte c -> is_byte t -> is_byte h -> is_byte l -> is_payload payload ->
  192 :: 0 :: c :: t :: zlen payload :: h :: l :: payload = x ++ y -> x <> [] -> y <> [] -> attempt skip x = (None, Err ReadError).
Proof.
  intros Bc Bt Bh Bl P E Nx Ny.
  destruct x as [|x0 x]; [congruence|]. injection E as <- E.
  destruct x as [|x1 x]; [reflexivity|]. injection E as <- E.
  destruct (le_lt_dec 5 (length x)) as [G|G].
  - destruct x as [|x2 [|x3 [|x4 [|x5 [|x6 x]]]]]; cbn [length] in G; try lia.
    cbn [app] in E. injection E as <- <- <- <- <- E. subst payload. destruct P as [Fp Lp]. apply Forall_app in Fp. destruct Fp as [Fx Fy].
    assert (0 < zlen y) by (destruct y; [congruence | unfold zlen; cbn [length]; lia]).
    assert (Q : zlen (x ++ y) = zlen x + zlen y) by (unfold zlen; rewrite app_length; lia).
    apply attempt_wait; try assumption; [|lia]. unfold is_byte, zlen in *. lia.
  - apply attempt_short; [|lia].
    assert (W : Forall is_byte (x ++ y)).
    { rewrite <- E. destruct P as [Fp Lp]. repeat apply Forall_cons; try assumption. unfold is_byte, zlen in *. lia. }
    apply Forall_app in W. tauto.
Qed.
Lemma wait_call lib p b skip : sp_skip p = skip -> Forall is_byte (sp_buf p) -> is_byte b ->
  attempt skip (sp_buf p ++ [b]) = (None, Err ReadError) ->
  exists r, sparse lib p [b] = (set_buf p (sp_buf p ++ [b]), Ok r) /\ reports lib p [b] = [].
Proof.
  intros S F B A. assert (N : sp_buf p ++ [b] <> []) by (destruct (sp_buf p); discriminate).
  assert (Fb : Forall is_byte [b]) by (constructor; [exact B | constructor]).
  assert (R : runs lib (sp_skip p) (sp_buf p ++ [b]) [] [] (olist (@None Z)) 0 false (sp_buf p ++ [b])).
  { rewrite S. eapply runs_wait; [exact N | exact A | reflexivity]. }
  pose proof (sparse_runs _ _ _ _ _ _ _ _ _ F Fb R) as E. cbn [with_counters fold_left olist] in E.
  eexists. split; [exact E|].
  destruct (reports_returned lib p [b] _ F Fb ltac:(rewrite E; reflexivity)) as [_ M]. cbn [pr_errors] in M.
  destruct (reports lib p [b]); [reflexivity | discriminate M].
Qed.
Lemma log_of_bad_frame lib c t h l payload : is_byte c -> is_byte t -> is_byte h -> is_byte l -> is_payload payload ->
  calculate_crc payload <> (h, l) -> ~ In 192 (c :: t :: zlen payload :: h :: l :: payload) ->
  forall rest p, sp_buf p ++ rest = 192 :: 0 :: c :: t :: zlen payload :: h :: l :: payload -> rest <> [] ->
  modem_log lib p rest = [mkReport ParseError (hex_text [last rest 0]) (7 + zlen payload)].
Proof.
  intros Bc Bt Bh Bl P NC NI rest. 
  assert (FA : Forall is_byte (192 :: 0 :: c :: t :: zlen payload :: h :: l :: payload)).
  { destruct P as [Fp Lp]. repeat apply Forall_cons; try assumption; unfold is_byte, zlen in *; lia. }
  induction rest as [|b rest IH]; intros p E N; [congruence|].
  assert (FP : Forall is_byte (sp_buf p) /\ is_byte b).
  { rewrite <- E in FA. apply Forall_app in FA. destruct FA as [A B]. inversion B; auto. }
  destruct FP as [FP Bb]. assert (NE : sp_buf p ++ [b] <> []) by (destruct (sp_buf p); discriminate).
  destruct rest as [|b2 rest].
  - clear IH. cbn [modem_log last].
    assert (A : attempt (sp_skip p) (sp_buf p ++ [b]) = (Some c, Err ParseError)).
    { rewrite E. pose proof (attempt_full (sp_skip p) c t h l payload [] Bc Bt Bh Bl P (Forall_nil _)) as K. rewrite app_nil_r in K. rewrite K.
      destruct (calculate_crc payload) as [u v]. cbn [fst snd]. destruct (Z.eqb_spec u h) as [->|]; [|reflexivity].
      destruct (Z.eqb_spec v l) as [->|]; [congruence | reflexivity]. }
    assert (D : skip_bad (sp_buf p ++ [b]) = ([], 7 + zlen payload)).
    { rewrite E. rewrite (surjective_pairing (skip_bad _)). rewrite skip_bad_buf, skip_bad_count.
      assert (Z0 : drop_c0 (0 :: c :: t :: zlen payload :: h :: l :: payload) = []).
      { destruct (drop_c0_suffix (0 :: c :: t :: zlen payload :: h :: l :: payload)) as (pre & EP & _).
        destruct (drop_c0_head (0 :: c :: t :: zlen payload :: h :: l :: payload)) as [W|(w & W)]; [exact W|].
        exfalso. apply NI. rewrite W in EP. assert (I : In 192 (0 :: c :: t :: zlen payload :: h :: l :: payload)) by (rewrite EP; apply in_or_app; right; left; reflexivity).
        destruct I as [I|I]; [discriminate I | exact I]. }
      rewrite Z0. f_equal. unfold zlen. cbn [length]. lia. }
    assert (R : runs lib (sp_skip p) (sp_buf p ++ [b]) [] [mkPErr ParseError (7 + zlen payload)] (olist (Some c) ++ []) 0 false []).
    { pose proof (runs_skip lib (sp_skip p) (sp_buf p ++ [b]) (Some c) ParseError [] [] [] 0 false [] NE A eq_refl eq_refl) as K.
      rewrite D in K. cbn [fst snd] in K. apply K. constructor. }
    assert (Fb : Forall is_byte [b]) by (constructor; [exact Bb | constructor]).
    pose proof (sparse_runs _ _ _ _ _ _ _ _ _ FP Fb R) as S.
    destruct (reports_returned lib p [b] _ FP Fb ltac:(rewrite S; reflexivity)) as [_ M]. cbn [pr_errors] in M.
    rewrite S, app_nil_r. unfold modem_reports. destruct (reports lib p [b]) as [|e1 [|e2 es]]; try discriminate M.
    cbn [map] in *. injection M as -> ->. reflexivity.
  - assert (E' : 192 :: 0 :: c :: t :: zlen payload :: h :: l :: payload = (sp_buf p ++ [b]) ++ b2 :: rest) by (rewrite <- app_assoc; symmetry; exact E).
    pose proof (prefix_waits c t h l payload _ _ (sp_skip p) Bc Bt Bh Bl P E' NE ltac:(discriminate)) as A.
    destruct (wait_call lib p b _ eq_refl FP Bb A) as (r & S & RP).
    change (last (b :: b2 :: rest) 0) with (last (b2 :: rest) 0). rewrite <- (IH (set_buf p (sp_buf p ++ [b]))); [|cbn [sp_buf set_buf]; symmetry; exact E' | discriminate].
    change (modem_log lib p (b :: b2 :: rest)) with (modem_reports lib p [b] ++ match sparse lib p [b] with (q, Ok _) => modem_log lib q (b2 :: rest) | (_, Err _) => [] end).
    rewrite S. unfold modem_reports. rewrite RP. reflexivity.
Qed.

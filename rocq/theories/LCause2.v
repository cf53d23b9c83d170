(** Lemmas for C95: the rounds *)
From Coq Require Import ZifyBool ZifyNat String Ascii.
From Verif Require Import SCause LRun LSerial LReport LReport2 LCause.
Open Scope list_scope.
Open Scope Z_scope.
Ltac Zify.zify_post_hook ::= Z.div_mod_to_equations.

(** a round is an attempt *)
Lemma round_outcome lib p x q rs r : byte_in p -> Forall is_byte x -> parse_rounds lib p x = (q, rs) -> In r rs ->
  ro_buffer r <> [] /\ Forall is_byte (ro_buffer r) /\ exists o a, attempt (sp_skip p) (ro_buffer r) = (o, a) /\
  ro_out r = match a with
             | Ok (mt, m, n) => Got mt m (n / 8)
             | Err e => if is_read_error lib e then Waits else if no_args e then Leaves IndexError
                        else Bad e (snd (skip_bad (ro_buffer r)))
             end.
Proof.
  intros B F E I. unfold parse_rounds in E. apply In_nth_error in I. destruct I as [i I].
  assert (FB : Forall is_byte (sp_buf p ++ x)) by (apply Forall_app; auto).
  destruct (rounds_from _ _ _ _ _ _ _ E I FB (le_n _)) as (n' & p' & R & Eb & Es & FB' & L).
  cbn [sp_skip set_buf] in Es. destruct n' as [|n'].
  { cbn [rounds] in R. injection R as _ R. destruct (nth_error_split rs i I) as (l1 & l2 & El & Ll). rewrite El, skipn_app, skipn_all2 in R by lia.
    replace (i - List.length l1)%nat with 0%nat in R by lia. discriminate R. }
  cbn [rounds] in R. destruct (sp_buf p') as [|b0 r0] eqn:Ebb.
  { injection R as _ R. destruct (nth_error_split rs i I) as (l1 & l2 & El & Ll). rewrite El, skipn_app, skipn_all2 in R by lia.
    replace (i - List.length l1)%nat with 0%nat in R by lia. discriminate R. }
  assert (N : ro_buffer r <> []) by (rewrite <- Eb; discriminate).
  split; [exact N|]. split; [rewrite <- Eb; exact FB'|].
  rewrite <- Ebb in Eb. assert (NP : sp_buf p' <> []) by (rewrite Ebb; discriminate). clear Ebb FB' L b0 r0.
  assert (Er : exists rest, skipn i rs = r :: rest).
  { destruct (nth_error_split rs i I) as (l1 & l2 & El & Ll). exists l2. rewrite El, skipn_app, skipn_all2 by lia.
    replace (i - List.length l1)%nat with 0%nat by lia. reflexivity. }
  destruct Er as [rest Er]. rewrite Er in R.
  rewrite one_round_eq in R by exact NP. rewrite Es, Eb in R.
  destruct (attempt (sp_skip p) (ro_buffer r)) as [o a]. exists o, a. split; [reflexivity|].
  destruct a as [[[mt m] n]|e]; cbv zeta in R.
  - cbn [ro_out goes_on] in R. destruct (rounds n' lib _) as [q' rs']. injection R as _ <- _. reflexivity.
  - destruct (is_read_error lib e); [cbn [ro_out goes_on] in R; injection R as _ <- _; reflexivity|].
    destruct (no_args e); [cbn [ro_out goes_on] in R; injection R as _ <- _; reflexivity|].
    cbn [ro_out goes_on] in R. destruct (rounds n' lib _) as [q' rs']. injection R as _ <- _. reflexivity.
Qed.

Lemma not_read lib e : is_read_error lib e = false -> e <> ReadError.
Proof. intros H ->. discriminate H. Qed.

Lemma cause_of lib p x q rs r e n : byte_in p -> Forall is_byte x -> parse_rounds lib p x = (q, rs) -> In r rs -> ro_out r = Bad e n ->
  (e = ParseError /\ exists c, complains (ro_buffer r) c /\ of_bytes c /\ says r c) \/ (sp_skip p = false /\ blames_payload r).
Proof.
  intros B F E I O. destruct (round_outcome _ _ _ _ _ _ B F E I) as (N & FB & o & a & A & Oa). rewrite O in Oa.
  destruct a as [[[mt m] k]|e']; [discriminate Oa|].
  destruct (is_read_error lib e') eqn:R; [discriminate Oa|]. destruct (no_args e') eqn:NA; [discriminate Oa|]. injection Oa as -> ->.
  destruct (failed_attempt _ _ _ _ FB N A (or_intror (not_read _ _ R))) as [(c & C & W & H & ->)|(c & t & payload & rest & Eb & Bc & Bt & P & Fr & H & K)].
  - left. split; [reflexivity|]. exists c. refine (conj C (conj W _)). unfold says, entry, report. rewrite O, H. eexists. split; reflexivity.
  - right.
    assert (T5 : t <> 5).
    { intros ->. rewrite body_rebooted in K by (apply Forall_app; split; [apply P | exact Fr]).
      destruct (payload ++ rest); [injection K as <-; discriminate R | discriminate K]. }
    assert (T4 : t <> 4 /\ sp_skip p = false).
    { destruct (Z.eq_dec t 4) as [->|T4]; [rewrite body_raw in K; [discriminate K | lia | auto | apply P]|].
      split; [exact T4|]. destruct (sp_skip p) eqn:S; [|reflexivity]. rewrite body_raw in K; [discriminate K | exact T5 | auto | apply P]. }
    destruct T4 as [T4 S]. split; [exact S|]. rewrite body_alp in K by assumption.
    unfold blames_payload, entry, report. rewrite O, H. eexists _, c, t, payload, rest, e'.
    refine (conj eq_refl (conj eq_refl (conj Eb (conj T4 (conj T5 (conj _ eq_refl)))))).
    destruct (alp_parse _ _) as [[cc ss]|ee]; [discriminate K | injection K as ->; reflexivity].
Qed.

Lemma complaint_said lib p x q rs r c : byte_in p -> Forall is_byte x -> parse_rounds lib p x = (q, rs) -> In r rs ->
  complains (ro_buffer r) c -> says r c.
Proof.
  intros B F E I C. destruct (round_outcome _ _ _ _ _ _ B F E I) as (N & FB & o & a & A & Oa).
  destruct (complaint_fails (sp_skip p) _ _ FB C) as (o' & A' & H). rewrite A in A'. injection A' as -> ->. cbn [is_read_error no_args] in Oa.
  unfold says, entry, report. rewrite Oa, H. eexists. split; reflexivity.
Qed.

(** ** Reading the text *)
Fixpoint no_space (s : string) : bool :=
  match s with EmptyString => true | String c r => negb (Ascii.eqb c " ") && no_space r end.
Lemma split_space u : forall u' r r', no_space u = true -> no_space u' = true ->
  (u ++ String " " r = u' ++ String " " r')%string -> u = u' /\ r = r'.
Proof.
  induction u as [|c u IH]; intros [|c' u'] r r' N N' E; cbn [append] in E.
  - injection E as ->. auto.
  - injection E as <- _. cbn [no_space] in N'. rewrite Ascii.eqb_refl in N'. discriminate N'.
  - injection E as -> _. cbn [no_space] in N. rewrite Ascii.eqb_refl in N. discriminate N.
  - injection E as <- E. cbn [no_space] in N, N'. apply andb_prop in N. apply andb_prop in N'.
    destruct (IH _ _ _ (proj2 N) (proj2 N') E) as [-> ->]. auto.
Qed.
Lemma append_inv u : forall r r', (u ++ r = u ++ r')%string -> r = r'.
Proof. induction u as [|c u IH]; intros r r' E; [exact E|]. cbn [append] in E. injection E as E. exact (IH _ _ E). Qed.
Definition byte_list : list Z := map Z.of_nat (seq 0 256).
Lemma in_bytes b : is_byte b -> In b byte_list.
Proof. intros B. unfold is_byte in B. apply in_map_iff. exists (Z.to_nat b). split; [lia | apply in_seq; lia]. Qed.
Definition value_of (s : string) : Z := (fix go (s : string) (acc : Z) := match s with EmptyString => acc | String c r => go r (10 * acc + Z.of_N (N_of_ascii c) - 48) end) s 0.
Lemma dec_sweep : forallb (fun b => no_space (dec_str b) && (value_of (dec_str b) =? b)) byte_list = true.
Proof. vm_compute. reflexivity. Qed.
Lemma dec_spaceless b : is_byte b -> no_space (dec_str b) = true.
Proof. intros B. pose proof (proj1 (forallb_forall _ _) dec_sweep b (in_bytes b B)) as K. apply andb_prop in K. tauto. Qed.
Lemma dec_injective a b : is_byte a -> is_byte b -> dec_str a = dec_str b -> a = b.
Proof.
  intros A B E. pose proof (proj1 (forallb_forall _ _) dec_sweep a (in_bytes a A)) as K. pose proof (proj1 (forallb_forall _ _) dec_sweep b (in_bytes b B)) as L.
  apply andb_prop in K, L. destruct K as [_ K], L as [_ L]. rewrite E in K. lia.
Qed.
Lemma append_assoc a : forall b c : string, ((a ++ b) ++ c = a ++ b ++ c)%string.
Proof. induction a as [|x a IH]; intros b c; [reflexivity|]. cbn [append]. rewrite IH. reflexivity. Qed.

Lemma wording_injective c d : of_bytes c -> of_bytes d -> wording c = wording d -> c = d.
Proof.
  intros C D E. destruct c as [b|b|h l a b], d as [b'|b'|h' l' a' b']; cbn [wording] in E; try discriminate E; cbn [of_bytes] in C, D.
  - f_equal. apply dec_injective; [exact C | exact D |]. apply (f_equal fst) in E. cbn [fst] in E. apply append_inv in E. exact E.
  - f_equal. apply dec_injective; [exact C | exact D |]. apply (f_equal fst) in E. cbn [fst] in E. apply append_inv in E. exact E.
  - destruct C as (C1 & C2 & C3 & C4), D as (D1 & D2 & D3 & D4).
    apply (f_equal fst) in E. cbn [fst] in E. apply append_inv in E.
    apply split_space in E; [|apply dec_spaceless; assumption ..]. destruct E as [E1 E].
    apply split_space in E; [|apply dec_spaceless; assumption ..]. destruct E as [E2 E].
    apply (append_inv "and expected ") in E.
    apply split_space in E; [|apply dec_spaceless; assumption ..]. destruct E as [E3 E].
    f_equal; apply dec_injective; assumption.
Qed.

(** ** When a missing 0xC0 is reported *)
Lemma rest_waits skip buf o e : Forall is_byte buf -> buf <> [] -> attempt skip buf = (o, Err e) -> e <> ParseError -> exists r, buf = 192 :: r.
Proof.
  intros F N A E. destruct buf as [|b r]; [congruence|]. inversion F; subst. destruct (Z.eq_dec b 192) as [->|K]; [eauto|].
  rewrite attempt_sync in A by assumption. congruence.
Qed.
Lemma kept_buf p o : sp_buf (with_counters p (olist o)) = sp_buf p.
Proof. destruct o as [z|]; [|reflexivity]. unfold with_counters, olist. cbn [fold_left]. unfold bump. destruct (negb _); reflexivity. Qed.
(** a chain of rounds: what lies before each *)
Lemma rounds_sync n : forall lib p q rs, rounds n lib p = (q, rs) -> Forall is_byte (sp_buf p) -> (List.length (sp_buf p) <= n)%nat ->
  at_rest q /\ forall i r b, nth_error rs i = Some r -> complains (ro_buffer r) (NoSync b) ->
    (i = 0%nat /\ hd_error (sp_buf p) = Some b) \/ exists j r' t m k, i = S j /\ nth_error rs j = Some r' /\ ro_out r' = Got t m k.
Proof.
  induction n as [|n IH]; intros lib p q rs E F L.
  { cbn [rounds] in E. injection E as <- <-. split; [left; destruct (sp_buf p); [reflexivity | cbn [List.length] in L; lia] | intros [|i] r b K; discriminate K]. }
  cbn [rounds] in E. destruct (sp_buf p) as [|b0 r0] eqn:Eb.
  { injection E as <- <-. split; [left; exact Eb | intros [|i] r b K; discriminate K]. }
  rewrite <- Eb in *. assert (NE : sp_buf p <> []) by (rewrite Eb; discriminate).
  assert (Z0 : forall buf b, buf = sp_buf p -> complains buf (NoSync b) -> hd_error (sp_buf p) = Some b).
  { intros buf b -> C. inversion C as [b1 r1 Nb HE HB| |]; subst. reflexivity. } clear Eb b0 r0.
  rewrite one_round_eq in E by exact NE.
  destruct (attempt (sp_skip p) (sp_buf p)) as [o [[[t m] k]|e]] eqn:A; cbv zeta in E.
  - cbn [ro_out goes_on] in E. set (p1 := set_buf _ _) in E. destruct (rounds n lib p1) as [q' rs'] eqn:ER. injection E as -> <-.
    pose proof (got_shorter _ _ _ _ _ _ F NE A) as K.
    destruct (IH lib p1 q rs' ER) as [R G].
    { apply skipn_bytes. exact F. } { cbn [p1 sp_buf set_buf]. rewrite skipn_length. lia. }
    split; [exact R|]. intros [|i] r b Ni C.
    + left. cbn [nth_error] in Ni. injection Ni as <-. split; [reflexivity | exact (Z0 _ _ eq_refl C)].
    + right. cbn [nth_error] in Ni. destruct (G _ _ _ Ni C) as [[-> _]|(j & r' & t' & m' & k' & -> & Nj & O)].
      * exists 0%nat. eexists _, _, _, _. repeat split; reflexivity.
      * exists (S j), r', t', m', k'. repeat split; assumption.
  - destruct (is_read_error lib e) eqn:R.
    { injection E as <- <-. split.
      - right. destruct (rest_waits _ _ _ _ F NE A) as [r Er]; [intros ->; discriminate R|]. exists r. rewrite <- Er. apply kept_buf.
      - intros [|i] r b Ni C; [|destruct i; discriminate Ni]. left. cbn [nth_error] in Ni. injection Ni as <-. split; [reflexivity | exact (Z0 _ _ eq_refl C)]. }
    destruct (no_args e) eqn:NA.
    { injection E as <- <-. split.
      - right. destruct (rest_waits _ _ _ _ F NE A) as [r Er]; [intros ->; discriminate NA|]. exists r. rewrite <- Er. apply kept_buf.
      - intros [|i] r b Ni C; [|destruct i; discriminate Ni]. left. cbn [nth_error] in Ni. injection Ni as <-. split; [reflexivity | exact (Z0 _ _ eq_refl C)]. }
    cbn [ro_out goes_on] in E. set (p1 := set_buf _ _) in E. destruct (rounds n lib p1) as [q' rs'] eqn:ER. injection E as -> <-.
    pose proof (skip_bad_shorter (sp_buf p) NE) as K.
    destruct (IH lib p1 q rs' ER) as [Rq G].
    { apply skip_bad_bytes. exact F. } { cbn [p1 sp_buf set_buf]. lia. }
    split; [exact Rq|]. intros [|i] r b Ni C.
    + left. cbn [nth_error] in Ni. injection Ni as <-. split; [reflexivity | exact (Z0 _ _ eq_refl C)].
    + right. cbn [nth_error] in Ni. destruct (G _ _ _ Ni C) as [[-> Hd]|(j & r' & t' & m' & k' & -> & Nj & O)].
      * exfalso. cbn [p1 sp_buf set_buf] in Hd. destruct (sp_buf p) as [|b0 r0] eqn:Eb; [congruence|].
        rewrite skip_bad_buf in Hd. destruct (drop_c0_head r0) as [Ed|(w & Ed)]; rewrite Ed in Hd; [discriminate Hd|]. injection Hd as <-.
        inversion C; congruence.
      * exists (S j), r', t', m', k'. repeat split; assumption.
Qed.

Lemma lost_head skip buf o e rp : Forall is_byte buf -> buf <> [] -> attempt skip buf = (o, Err e) -> e <> ReadError ->
  lost_sync (mkEntry (header_raises buf) rp) = true -> hd_error buf <> Some 192.
Proof.
  intros F N A R H. destruct (failed_attempt _ _ _ _ F N A (or_intror R)) as [(c & C & _ & E & _)|(c & t & payload & rest & _ & _ & _ & _ & _ & E & _)];
    unfold lost_sync in H; cbn [en_header] in H; rewrite E in H; [|discriminate H].
  destruct c as [b|v|h l a b]; [|discriminate H ..]. inversion C; subst. cbn [hd_error]. congruence.
Qed.
Definition allowance (buf : list Z) : Z := match buf with [] => 0 | b :: _ => if b =? 192 then 0 else 1 end.
Lemma allowance_01 buf : 0 <= allowance buf <= 1.
Proof. unfold allowance. destruct buf; [lia|]. destruct (_ =? _); lia. Qed.
Lemma rounds_lost n : forall lib p q rs, rounds n lib p = (q, rs) -> Forall is_byte (sp_buf p) -> (List.length (sp_buf p) <= n)%nat ->
  zlen (filter lost_sync (flat_map entry rs)) <= zlen (messages rs) + allowance (sp_buf p).
Proof.
  induction n as [|n IH]; intros lib p q rs E F L.
  { cbn [rounds] in E. injection E as _ <-. pose proof (allowance_01 (sp_buf p)). cbn. lia. }
  cbn [rounds] in E. destruct (sp_buf p) as [|b0 r0] eqn:Eb.
  { injection E as _ <-. cbn. lia. }
  rewrite <- Eb in *. assert (NE : sp_buf p <> []) by (rewrite Eb; discriminate). clear Eb b0 r0.
  rewrite one_round_eq in E by exact NE.
  destruct (attempt (sp_skip p) (sp_buf p)) as [o [[[t m] k]|e]] eqn:A; cbv zeta in E.
  - cbn [ro_out goes_on] in E. set (p1 := set_buf _ _) in E. destruct (rounds n lib p1) as [q' rs'] eqn:ER. injection E as -> <-.
    pose proof (got_shorter _ _ _ _ _ _ F NE A) as K.
    assert (G := IH lib p1 q rs' ER). specialize (G (skipn_bytes _ _ F)). pose proof (allowance_01 (sp_buf p)). pose proof (allowance_01 (sp_buf p1)).
    unfold messages. cbn [flat_map entry report ro_out got map app]. fold (messages rs'). rewrite zlen_cons.
    assert (Lp : (List.length (sp_buf p1) <= n)%nat) by (cbn [p1 sp_buf set_buf]; rewrite skipn_length; lia). specialize (G Lp). lia.
  - pose proof (allowance_01 (sp_buf p)) as AL. destruct (is_read_error lib e) eqn:R; [injection E as _ <-; cbn; lia|].
    destruct (no_args e) eqn:NA; [injection E as _ <-; cbn; lia|].
    cbn [ro_out goes_on] in E. set (p1 := set_buf _ _) in E. destruct (rounds n lib p1) as [q' rs'] eqn:ER. injection E as -> <-.
    pose proof (skip_bad_shorter (sp_buf p) NE) as K.
    assert (G := IH lib p1 q rs' ER). specialize (G (skip_bad_bytes _ F)).
    assert (Lp : (List.length (sp_buf p1) <= n)%nat) by (cbn [p1 sp_buf set_buf]; lia). specialize (G Lp).
    assert (Z1 : allowance (sp_buf p1) = 0).
    { cbn [p1 sp_buf set_buf]. destruct (sp_buf p) as [|b0 r0]; [congruence|]. rewrite skip_bad_buf.
      destruct (drop_c0_head r0) as [Ed|(w & Ed)]; rewrite Ed; reflexivity. }
    unfold messages. cbn [flat_map got ro_out app]. fold (messages rs'). 
    unfold entry at 1. cbn [report ro_out ro_buffer map app filter].
    destruct (lost_sync _) eqn:LS; [|lia].
    rewrite zlen_cons. apply lost_head with (skip := sp_skip p) (o := o) (e := e) in LS; try assumption; [|exact (not_read _ _ R)].
    assert (allowance (sp_buf p) = 1).
    { destruct (sp_buf p) as [|b0 r0]; [congruence|]. cbn [allowance hd_error] in *. replace (b0 =? 192) with false; [reflexivity|]. symmetry. apply Z.eqb_neq. congruence. }
    lia.
Qed.

Lemma parse_at_rest lib p x q r : byte_in p -> Forall is_byte x -> sparse lib p x = (q, r) -> at_rest q.
Proof.
  intros B F E. pose proof (rounds_are_parse lib p x B F) as K. destruct (parse_rounds lib p x) as [q' rs] eqn:R. destruct K as [K _].
  rewrite E in K. cbn [fst] in K. subst q'. unfold parse_rounds in R. apply rounds_sync in R; [exact (proj1 R) | apply Forall_app; auto | apply le_n].
Qed.
Lemma sync_reported lib p x q rs i r b : byte_in p -> at_rest p -> Forall is_byte x -> parse_rounds lib p x = (q, rs) ->
  nth_error rs i = Some r -> says r (NoSync b) -> is_byte b ->
  (i = 0%nat /\ sp_buf p = [] /\ hd_error x = Some b)
  \/ exists j r' t m k, i = S j /\ nth_error rs j = Some r' /\ ro_out r' = Got t m k.
Proof.
  intros B A F E Ni S Bb.
  assert (C : complains (ro_buffer r) (NoSync b)).
  { destruct S as (rp & Rp & En). pose proof (nth_error_In _ _ Ni) as I. unfold report in Rp.
    destruct (ro_out r) as [| e n | |] eqn:O; try discriminate Rp.
    destruct (cause_of _ _ _ _ _ _ _ _ B F E I O) as [(_ & c & C & W & (rp' & Rp' & En'))|(_ & (rp' & c' & t' & pl & rest & e' & Rp' & En' & _))].
    - rewrite En in En'. assert (Ew : wording (NoSync b) = wording c) by congruence. replace (NoSync b) with c; [exact C|]. symmetry. apply wording_injective; [exact Bb | exact W | exact Ew].
    - rewrite En in En'. discriminate En'. }
  pose proof E as E'. unfold parse_rounds in E'. apply rounds_sync in E'; [|apply Forall_app; auto | apply le_n].
  destruct (proj2 E' _ _ _ Ni C) as [[-> H]|H]; [|right; exact H]. left. cbn [sp_buf set_buf] in H.
  destruct A as [A|[w A]]; rewrite A in H; [split; [reflexivity | split; [exact A | exact H]]|].
  cbn [app hd_error] in H. injection H as <-. inversion C; congruence.
Qed.
Lemma few_lost lib p x q res : byte_in p -> at_rest p -> Forall is_byte x -> sparse lib p x = (q, Ok res) ->
  zlen (filter lost_sync (entries lib p x)) <= zlen (pr_msgs res) + (if sp_buf p then 1 else 0).
Proof.
  intros B A F E. pose proof (rounds_are_parse lib p x B F) as K. unfold entries. destruct (parse_rounds lib p x) as [q' rs] eqn:R.
  rewrite E in *. cbn [fst snd] in *. destruct K as (-> & -> & _). unfold parse_rounds in R. apply rounds_lost in R; [|apply Forall_app; auto | apply le_n].
  cbn [sp_buf set_buf] in R. pose proof (allowance_01 (sp_buf p ++ x)) as K. destruct (sp_buf p) as [|b w] eqn:Eb; [lia|].
  destruct A as [A|[v A]]; rewrite Eb in A; [discriminate A|]. injection A as -> ->. cbn [app allowance] in R. change (192 =? 192) with true in R. cbv iota in R. lia.
Qed.
Lemma entries_reports lib p x : map en_report (entries lib p x) = reports lib p x.
Proof.
  unfold entries, reports. destruct (snd (sparse lib p x)); [|reflexivity]. induction (snd (parse_rounds lib p x)) as [|r rs IH]; [reflexivity|].
  cbn [flat_map]. rewrite map_app, IH. f_equal. unfold entry. rewrite map_map. cbn [en_report]. apply map_id.
Qed.
Lemma modem_entries_cause lib p x : map en_header (modem_entries lib p x) = map en_header (entries lib p x)
  /\ map en_report (modem_entries lib p x) = modem_reports lib p x.
Proof.
  unfold modem_entries, modem_reports. rewrite <- entries_reports, !map_map. split; reflexivity.
Qed.

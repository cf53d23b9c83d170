(** Several threads in one Parser: only whole frames are ever returned. *)
From Coq Require Import ZifyBool ZifyNat.
From Verif Require Import SInside LSerial LLink LInside.
Set Implicit Arguments.

Lemma header_any n s : Forall is_byte s ->
  header_fields n (stream_of s) = header_fields (zlen s) (stream_of s) \/ header_fields n (stream_of s) = Err ReadError.
Proof.
  intro F. destruct s as [|b0 r]; [right; reflexivity|]. inversion F as [|? ? B0 F1]; subst.
  destruct (Z.eq_dec b0 192) as [->|N0]; [|left; rewrite !header_sync by assumption; reflexivity].
  destruct r as [|b1 r]; [right; apply header_one|]. inversion F1 as [|? ? B1 F2]; subst.
  destruct (Z.eq_dec b1 0) as [->|N1]; [|left; rewrite !header_version by assumption; reflexivity].
  destruct r as [|c r]; [right; apply header_short; cbn; auto; lia|]. inversion F2 as [|? ? Bc F3]; subst.
  destruct r as [|t r]; [right; apply header_short; cbn; auto; lia|]. inversion F3 as [|? ? Bt F4]; subst.
  destruct r as [|len r]; [right; apply header_short; cbn; auto; lia|]. inversion F4 as [|? ? Bn F5]; subst.
  destruct r as [|h r]; [right; apply header_short; cbn; auto; lia|]. inversion F5 as [|? ? Bh F6]; subst.
  destruct r as [|l body]; [right; apply header_short; cbn; auto; lia|]. inversion F6 as [|? ? Bl F7]; subst.
  rewrite !header_full by assumption. destruct (n - 7 <? len); [right; reflexivity|].
  rewrite !zlen_cons. destruct (zlen body <? len) eqn:L; [right; reflexivity|]. left.
  replace (_ <? len) with false by lia. reflexivity.
Qed.
Lemma attempt_none e skip s : Forall is_byte s -> s <> [] -> snd (attempt skip s) = Err e -> no_args e = true ->
  exists c t payload rest, s = frame c t payload ++ rest /\ is_byte c /\ is_byte t /\ is_payload payload
  /\ skip = false /\ t <> 4 /\ t <> 5 /\ alp_parse (zlen payload) (St 56 (bytes_bits (payload ++ rest))) = Err AssertNoMsg.
Proof.
  intros F N E A. pose proof (attempt_cases skip s F N) as S. destruct (attempt skip s) as [o x]. cbn [snd] in E. subst x.
  inversion S as [ | | | | | |c t' payload rest Bc Bt P Fr]; subst; try discriminate A.
  assert (Fpr : Forall is_byte (payload ++ rest)) by (apply Forall_app; split; [apply P | assumption]).
  pose proof (body_spec skip t' payload rest Fpr) as K. match goal with H : body_res _ _ _ _ = _ |- _ => rewrite H in K end.
  destruct K as (X & _ & Y & _). destruct e; try discriminate A; try discriminate X.
  destruct Y as (-> & N4 & N5 & Y); [left; reflexivity|]. exists c, t', payload, rest. auto 12.
Qed.

(** what holds of a thread, with [W] the contents there have been, [G] the messages and [n] bytearrays *)
Section Place.
Variables (W : list Z -> Prop) (G : Z -> Msg -> Prop).
Definition use_ok (u : Use) : Prop :=
  match u with
  | UExtend msg => Forall is_byte msg
  | UHeader s => W s
  | UShift t m n => G t m /\ (8 <= n)%nat
  | UInfo (Some (t, m, _)) => G t m
  | _ => True
  end.
Definition locals_ok (l : Locals) : Prop := Forall (fun x => G (fst x) (snd x)) (lo_msgs l).
Definition place_ok (n : nat) (x : Place) : Prop :=
  match x with
  | PIdle => True
  | PLoad u l => use_ok u /\ locals_ok l
  | PHave u r l => use_ok u /\ locals_ok l /\ (r < n)%nat
  | PStore b x l => locals_ok l /\ Forall is_byte b /\ match x with NMessage t m _ => G t m | NError _ => True end
  end.
Definition result_ok (P : Prop) (x : nat * res PResult) : Prop :=
  match snd x with
  | Ok r => Forall (fun y => G (fst y) (snd y)) (pr_msgs r)
  | Err e => e = IndexError /\ P
  end.
End Place.
Lemma place_mono (W W' : list Z -> Prop) (G G' : Z -> Msg -> Prop) n n' x :
  (forall b, W b -> W' b) -> (forall t m, G t m -> G' t m) -> (n <= n')%nat -> place_ok W G n x -> place_ok W' G' n' x.
Proof.
  intros HW HG L. assert (U : forall u, use_ok W G u -> use_ok W' G' u) by (intros [| | | | | | | | |[[[? ?] ?]|]]; cbn; intuition auto).
  assert (O : forall l, locals_ok G l -> locals_ok G' l) by (intro l; apply Forall_impl; auto).
  destruct x as [|u l|u r l|b x l]; cbn; [auto | | | ].
  - intros [? ?]; auto.
  - intros (? & ? & ?); repeat split; auto; lia.
  - intros (? & ? & ?). split; [auto|]. split; [auto|]. destruct x; auto.
Qed.
Lemma result_mono (G G' : Z -> Msg -> Prop) (P P' : Prop) x :
  (forall t m, G t m -> G' t m) -> (P -> P') -> result_ok G P x -> result_ok G' P' x.
Proof. intros HG HP. unfold result_ok. destruct (snd x); [apply Forall_impl; auto | tauto]. Qed.

Definition was (lib : bool) (w : Inside) (ls : list InLabel) (b : list Z) : Prop := was_buffered lib w ls b.
Record Kept (lib : bool) (w : Inside) (ls : list InLabel) (v : Inside) : Prop := mkKept
  { k_run : inside_run lib w ls = Some v;
    k_skip : in_skip v = in_skip w; k_up : in_up v = in_up w;
    k_number : length (in_places v) = length (in_places w);
    k_cur : (in_cur v < length (in_store v))%nat;
    k_bytes : Forall (Forall is_byte) (in_store v);
    k_places : Forall (place_ok (fun b => was lib w ls b /\ Forall is_byte b) (genuine lib w ls) (length (in_store v))) (in_places v);
    k_results : Forall (result_ok (genuine lib w ls) (poisoned lib w ls)) (in_results v) }.

Lemma was_more lib w ls x b : was_buffered lib w ls b -> was_buffered lib w (ls ++ x) b.
Proof. intros (pre & post & v & r & -> & R & N). exists pre, (post ++ x), v, r. rewrite app_assoc. auto. Qed.
Lemma genuine_more lib w ls x t m : genuine lib w ls t m -> genuine lib w (ls ++ x) t m.
Proof. intros (c & p & rest & k & Bc & Bt & P & B & C). exists c, p, rest, k. auto 8 using was_more. Qed.
Lemma poisoned_more lib w ls x : poisoned lib w ls -> poisoned lib w (ls ++ x).
Proof. intros (c & t & p & rest & Bc & Bt & P & S & N4 & N5 & B & C). exists c, t, p, rest. auto 12 using was_more. Qed.

Lemma Forall_put A (P : A -> Prop) (l : list A) i y : Forall P l -> P y -> Forall P (put i y l).
Proof.
  intros F Y. revert i. induction F as [|x l X F IH]; intros [|i]; cbn; auto.
Qed.
Lemma Forall_skipn A (P : A -> Prop) n (l : list A) : Forall P l -> Forall P (skipn n l).
Proof. revert n. induction l as [|x l IH]; intros [|n] H; cbn; auto. inversion H; auto. Qed.

Section Step.
Variables (lib : bool) (w : Inside) (ls : list InLabel) (i : nat) (x : InLabel).
Let W (b : list Z) : Prop := was lib w (ls ++ [x]) b /\ Forall is_byte b.
Let G := genuine lib w (ls ++ [x]).
Let P := poisoned lib w (ls ++ [x]).
(** all but the run *)
Definition Rest (v : Inside) : Prop :=
  in_skip v = in_skip w /\ in_up v = in_up w /\ length (in_places v) = length (in_places w)
  /\ (in_cur v < length (in_store v))%nat /\ Forall (Forall is_byte) (in_store v)
  /\ Forall (place_ok W G (length (in_store v))) (in_places v) /\ Forall (result_ok G P) (in_results v).
Lemma rest_of v : Kept lib w ls v -> Rest v.
Proof.
  intros [R S U T C B Q O]. repeat (split; [assumption|]). split.
  - revert Q. apply Forall_impl. intro y. apply place_mono; [|intros; apply genuine_more; auto | lia].
    intros b [H1 H2]. split; [apply was_more, H1 | exact H2].
  - revert O. apply Forall_impl. intro y. apply result_mono; [intros; apply genuine_more; auto | apply poisoned_more].
Qed.
Lemma rest_place v y : Rest v -> place_ok W G (length (in_store v)) y -> Rest (put_place i y v).
Proof.
  intros (S & U & T & C & B & Q & O) Y. destruct v as [st c sk u d e ps rs].
  unfold Rest, put_place in *. cbn [in_store in_cur in_skip in_up in_places in_results] in *.
  rewrite put_length. repeat (split; [assumption|]). split; [apply Forall_put; assumption | assumption].
Qed.
Lemma rest_count v k : Rest v -> Rest (count k v).
Proof. intro R. destruct v as [st c sk u d e ps rs]. exact R. Qed.
Lemma rest_bytes v r b : Rest v -> Forall is_byte b -> Rest (put_bytes r b v).
Proof.
  intros (S & U & T & C & B & Q & O) Y. destruct v as [st c sk u d e ps rs].
  unfold Rest, put_bytes in *. cbn [in_store in_cur in_skip in_up in_places in_results] in *.
  rewrite put_length. repeat (split; [assumption|]). split; [apply Forall_put; assumption | auto].
Qed.
Lemma rest_new v b : Rest v -> Forall is_byte b -> Rest (new_bytes b v).
Proof.
  intros (S & U & T & C & B & Q & O) Y. destruct v as [st c sk u d e ps rs].
  unfold Rest, new_bytes in *. cbn [in_store in_cur in_skip in_up in_places in_results] in *.
  rewrite app_length. cbn [length]. repeat (split; [assumption || lia|]).
  split; [apply Forall_app; auto|]. split; [|assumption].
  revert Q. apply Forall_impl. intro y. apply place_mono; auto; lia.
Qed.
Lemma rest_finish v r : Rest v -> result_ok G P (i, r) -> Rest (finish i r v).
Proof.
  intros (S & U & T & C & B & Q & O) Y. destruct v as [st c sk u d e ps rs].
  unfold Rest, finish in *. cbn [in_store in_cur in_skip in_up in_places in_results] in *.
  rewrite put_length. repeat (split; [assumption|]). split; [apply Forall_put; [assumption | exact Logic.I]|].
  apply Forall_app; auto.
Qed.
Lemma rest_handle v e l s : Rest v -> locals_ok G l -> W s -> s <> [] ->
  (is_read_error lib e = false -> snd (attempt (in_skip w) s) = Err e) -> Rest (handle lib i e l v).
Proof.
  intros R L [Ws Fs] N E. unfold handle. destruct (is_read_error lib e).
  - apply rest_place; [exact R|]. cbn. auto.
  - destruct (no_args e) eqn:A.
    + apply rest_finish; [exact R|]. cbn. split; [reflexivity|].
      destruct (attempt_none (in_skip w) Fs N (E eq_refl) A) as (c & t & payload & rest & -> & H).
      exists c, t, payload, rest. tauto.
    + apply rest_place; [exact R|]. cbn. auto.
Qed.

Lemma header_nil n : header_fields n (stream_of []) = Err ReadError.
Proof. reflexivity. Qed.
Lemma rest_use v u r b l : Rest v -> use_ok W G u -> locals_ok G l -> nth_error (in_store v) r = Some b -> W b ->
  Rest (use lib i u r b l v).
Proof.
  intros R Hu Hl E Wb. assert (Fb : Forall is_byte b) by apply Wb.
  destruct u as [msg| |  |s|t m n|e|e|e k|e|[[[t m] n]|]]; cbn [use].
  - apply rest_place; [apply rest_bytes; [exact R | apply Forall_app; auto]|]. cbn. auto.
  - apply rest_place; [exact R|]. destruct b; cbn; auto.
  - apply rest_place; [exact R|]. cbn. auto.
  - cbn in Hu. destruct Hu as [Ws Fs]. destruct s as [|s0 s'].
    + rewrite header_nil. unfold handle. cbn [is_read_error]. apply rest_place; [exact R|]. cbn. auto.
    + set (s := s0 :: s') in *. assert (Ns : s <> []) by discriminate.
      destruct (header_any (zlen b) Fs) as [->| ->].
      * assert (A : attempt (in_skip w) s = attempt (in_skip w) s) by reflexivity. unfold attempt at 2 in A.
        destruct (header_fields (zlen s) (stream_of s)) as [[[[[[[counter t] len] c1] c2] payload] s2]|e].
        -- destruct (calculate_crc payload) as [h o]. pose proof (rest_count counter R) as R'.
           assert (Sk : in_skip (count counter v) = in_skip w) by apply R'. rewrite Sk.
           destruct (negb (h =? c1) || negb (o =? c2)).
           ++ apply (@rest_handle _ _ _ s); auto; [split; assumption|]. intros _. rewrite A. reflexivity.
           ++ destruct (parse_body (in_skip w) t len s2) as [[m s3]|e]; cbn [rbind] in *.
              ** apply rest_place; [exact R'|]. cbn. split; [|exact Hl].
                 destruct (attempt_ok _ _ _ _ _ _ Fs Ns A) as (c' & pl & rest & k & _ & E2 & En & Bc & Bt & Pp & _ & Ca & _).
                 split; [|lia]. exists c', pl, rest, k. rewrite E2 in Ws. auto 8.
              ** apply (@rest_handle _ _ _ s); auto; [split; assumption|]. intros _. rewrite A. reflexivity.
        -- apply (@rest_handle _ _ _ s); auto; [split; assumption|]. intros _. rewrite A. reflexivity.
      * apply (@rest_handle _ _ _ s); auto; [split; assumption|]. discriminate.
  - apply rest_place; [exact R|]. cbn. cbn in Hu. destruct Hu. auto using Forall_skipn.
  - destruct b as [|b0 b1].
    + apply rest_place; [exact R|]. cbn. split; [exact Logic.I|]. exact Hl.
    + apply rest_place; [apply rest_bytes; [exact R | inversion Fb; assumption]|]. cbn. auto.
  - apply rest_place; [exact R|]. destruct (find_c0 b 0) as [[q k]|]; cbn; auto.
  - apply rest_place; [exact R|]. cbn. auto using Forall_skipn.
  - apply rest_place; [exact R|]. cbn. auto.
  - apply rest_place; [exact R|]. cbn in Hu. cbn. split; [exact Logic.I|]. apply Forall_app; auto.
  - apply rest_finish; [exact R|]. exact Hl.
Qed.
End Step.

Lemma kept_step lib w ls v x v' : Kept lib w ls v -> inside_step lib v x = Some v' ->
  match x with ICall _ msg => Forall is_byte msg | IGo _ => True end -> Kept lib w (ls ++ [x]) v'.
Proof.
  intros K E B. pose proof (rest_of x K) as R.
  assert (Run : inside_run lib w (ls ++ [x]) = Some v') by (rewrite run_app, (k_run K); cbn [inside_run]; rewrite E; reflexivity).
  assert (Q : Rest lib w ls x v').
  { destruct x as [i msg|i]; cbn [inside_step] in E; destruct (nth_error (in_places v) i) as [y|] eqn:Pi; try discriminate.
    - destruct y; try discriminate. injection E as <-. apply rest_place; [exact R|]. cbn. split; [exact B | constructor].
    - assert (Y : place_ok (fun b => was lib w (ls ++ [IGo i]) b /\ Forall is_byte b) (genuine lib w (ls ++ [IGo i])) (length (in_store v)) y).
      { apply nth_error_In in Pi. destruct R as (_ & _ & _ & _ & _ & R & _). rewrite Forall_forall in R. apply R, Pi. }
      destruct y as [|u l|u r l|b n l]; [discriminate | | | ].
      + injection E as <-. apply rest_place; [exact R|]. cbn in Y |- *. destruct Y. repeat split; auto. apply K.
      + destruct (nth_error (in_store v) r) as [b|] eqn:N; [|discriminate]. injection E as <-. cbn in Y. destruct Y as (Y1 & Y2 & Y3).
        apply rest_use; auto. split.
        * exists ls, [IGo i], v, r. split; [reflexivity|]. split; [apply K | exact N].
        * pose proof (k_bytes K) as F. rewrite Forall_forall in F. apply F. eapply nth_error_In, N.
      + cbn in Y. destruct Y as (Y1 & Y2 & Y3). destruct n as [t m n|e]; injection E as <-;
        (apply rest_place; [apply rest_new; assumption|]); cbn; auto. }
  destruct Q as (Q1 & Q2 & Q3 & Q4 & Q5 & Q6 & Q7). constructor; assumption.
Qed.
Lemma kept_start lib p n : byte_in p -> Kept lib (inside_of p n) [] (inside_of p n).
Proof.
  intro B. constructor; cbn; auto.
  apply Forall_forall. intros x X. apply repeat_spec in X. subst x. exact Logic.I.
Qed.
Lemma kept_run lib p n : byte_in p -> forall ls v, Forall is_byte (given ls) -> inside_run lib (inside_of p n) ls = Some v ->
  Kept lib (inside_of p n) ls v.
Proof.
  intro B. induction ls as [|x ls IH] using rev_ind; intros v F R.
  - cbn in R. injection R as <-. apply kept_start, B.
  - unfold given in F. rewrite flat_map_app in F. apply Forall_app in F as [F1 F2].
    rewrite run_app in R. destruct (inside_run lib (inside_of p n) ls) as [u|] eqn:U; [|discriminate].
    cbn [inside_run] in R. destruct (inside_step lib u x) as [u'|] eqn:S; [|discriminate]. injection R as <-.
    eapply kept_step; [apply IH; auto | exact S|].
    cbn in F2. destruct x; [|exact Logic.I]. rewrite app_nil_r in F2. exact F2.
Qed.

(** the theorems *)
Lemma inside_genuine : forall lib p n ls w, byte_in p -> Forall is_byte (given ls) ->
  inside_run lib (inside_of p n) ls = Some w ->
  forall t m, In (t, m) (returned w) -> genuine lib (inside_of p n) ls t m.
Proof.
  intros lib p n ls w B F R t m I. pose proof (k_results (@kept_run lib p n B ls w F R)) as K. unfold returned in I.
  apply in_flat_map in I as (x & X & I). rewrite Forall_forall in K. specialize (K x X). unfold result_ok in K.
  destruct (snd x); [|destruct I]. rewrite Forall_forall in K. apply (K _ I).
Qed.
Lemma inside_raises : forall lib p n ls w, byte_in p -> Forall is_byte (given ls) ->
  inside_run lib (inside_of p n) ls = Some w ->
  forall i e, In (i, Err e) (in_results w) -> e = IndexError /\ poisoned lib (inside_of p n) ls.
Proof.
  intros lib p n ls w B F R i e I. pose proof (k_results (@kept_run lib p n B ls w F R)) as K.
  rewrite Forall_forall in K. exact (K _ I).
Qed.
Lemma inside_moves : forall lib p n ls w i x, byte_in p -> Forall is_byte (given ls) ->
  inside_run lib (inside_of p n) ls = Some w ->
  nth_error (in_places w) i = Some x -> x <> PIdle -> exists w', inside_step lib w (IGo i) = Some w'.
Proof.
  intros lib p n ls w i x B F R E N. pose proof (@kept_run lib p n B ls w F R) as K. cbn [inside_step]. rewrite E.
  pose proof (k_places K) as Q. rewrite Forall_forall in Q. specialize (Q x (nth_error_In _ _ E)).
  destruct x as [|u l|u r l|b [t m k|e] l]; try congruence; eauto.
  cbn in Q. destruct Q as (_ & _ & Q). apply nth_error_Some in Q. destruct (nth_error (in_store w) r); [eauto | congruence].
Qed.
Lemma inside_alone : forall lib p n ls w i msg, byte_in p -> Forall is_byte (given ls) ->
  inside_run lib (inside_of p n) ls = Some w -> nth_error (in_places w) i = Some PIdle -> Forall is_byte msg ->
  exists k w', inside_run lib w (ICall i msg :: repeat (IGo i) k) = Some w'
  /\ parser_now w' = fst (sparse lib (parser_now w) msg)
  /\ in_results w' = in_results w ++ [(i, snd (sparse lib (parser_now w) msg))]
  /\ in_places w' = in_places w.
Proof.
  intros lib p n ls w i msg B F R Pi Fm. pose proof (@kept_run lib p n B ls w F R) as K. set (q := parser_now w).
  destruct (nth_error (in_store w) (in_cur w)) as [b|] eqn:E; [|apply nth_error_None in E; pose proof (k_cur K); lia].
  assert (Eb : sp_buf q = b) by (apply nth_error_nth, E).
  assert (Bq : byte_in q). { unfold byte_in. rewrite Eb. pose proof (k_bytes K) as Kb. rewrite Forall_forall in Kb. eapply Kb, nth_error_In, E. }
  destruct (sparse lib q msg) as [q' r] eqn:S. cbn [fst snd].
  assert (NF : r <> Err OutOfFuel).
  { pose proof (parse_returns _ _ _ _ _ Bq Fm S) as C. intros ->. discriminate C. }
  unfold sparse in S. set (q1 := set_buf q (sp_buf q ++ msg)) in *.
  assert (Hi : (i < length (in_places w))%nat) by (apply nth_error_Some; congruence).
  set (st := put (in_cur w) (b ++ msg) (in_store w)).
  assert (N1 : nth_error st (in_cur w) = Some (sp_buf q1)) by (change (sp_buf q1) with (sp_buf q ++ msg); rewrite Eb; apply put_get, K).
  assert (W : w = mkI (in_store w) (in_cur w) q (in_places w) (in_results w)) by (destruct w; reflexivity).
  destruct (@buffer_alone lib i (in_places w) Hi _ q1 no_locals q' r eq_refl S NF st (in_cur w) (in_results w) N1) as (st' & c' & N' & k & G).
  exists (2 + k)%nat, (mkI st' c' q' (put i PIdle (in_places w)) (in_results w ++ [(i, r)])).
  refine (conj _ (conj _ (conj eq_refl _))).
  - cbn [inside_run inside_step]. rewrite Pi.
    assert (X : put_place i (PLoad (UExtend msg) no_locals) w = mkI (in_store w) (in_cur w) q (put i (PLoad (UExtend msg) no_locals) (in_places w)) (in_results w))
      by (destruct w; reflexivity).
    rewrite X. rewrite (@run_more lib i 2 k _ _ (@use_step lib i (in_places w) Hi _ _ _ _ _ _ _ E)).
    cbn [use]. unfold put_bytes, mkI, put_place. rewrite put_put. exact G.
  - unfold parser_now, mkI. cbn [in_store in_cur in_skip in_up in_down in_errs]. rewrite (nth_error_nth _ _ _ N'). destruct q'; reflexivity.
  - cbn [mkI in_places]. apply put_same, Pi.
Qed.

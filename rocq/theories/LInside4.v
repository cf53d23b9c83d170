(** Several threads in one Parser: two threads that keep each other busy for ever. *)
From Coq Require Import ZifyBool ZifyNat.
From Verif Require Import SInside LSerial LInside LInside2 LInside3.
Set Implicit Arguments.

Definition bad : list Z := [192; 1; 7].
Definition bad_error : Next := NError (mkPErr ParseError 1).
(** thread 0 (or 1) before the test of the loop, the other about to store a copy of the same bytes *)
Definition busy (lib sk : bool) (turn : bool) (w : Inside) : Prop :=
  exists st d e l l' rs, length rs = 8%nat /\ w = mkInside (st ++ [bad]) (length st) sk 0 d e
    (if turn then [PLoad UTest l; PStore bad bad_error l'] else [PStore bad bad_error l'; PLoad UTest l]) rs.
Definition half (turn : bool) : list InLabel :=
  let (i, j) := if turn then (0, 1)%nat else (1, 0)%nat in repeat (IGo i) 7 ++ [IGo j] ++ repeat (IGo i) 5.
Lemma put_app2 (st : list (list Z)) b c : put (length st) c (st ++ [b]) = st ++ [c].
Proof. induction st as [|x st IH]; cbn; [reflexivity | rewrite IH; reflexivity]. Qed.
Lemma bad_header n : header_fields n (stream_of bad) = Err ParseError.
Proof. apply header_version; [unfold is_byte; lia | discriminate]. Qed.

Lemma run_cons lib w x r : inside_run lib w (x :: r) = match inside_step lib w x with Some v => inside_run lib v r | None => None end.
Proof. reflexivity. Qed.
Lemma busy_half lib sk turn w : busy lib sk turn w -> exists w', inside_run lib w (half turn) = Some w' /\ busy lib sk (negb turn) w'.
Proof.
  intros (st & d & e & l & l' & rs & Lr & ->).
  set (l2 := l). set (l3 := add_error (mkPErr ParseError 1) l').
  exists (mkInside ((st ++ [[1; 7]]) ++ [bad]) (length (st ++ [[1; 7]])) sk 0 d e
     (if negb turn then [PLoad UTest l3; PStore bad bad_error l2] else [PStore bad bad_error l2; PLoad UTest l3]) rs).
  split; [|exists (st ++ [[1; 7]]), d, e, l3, l2, rs; split; [exact Lr | reflexivity]].
  assert (N1 : nth_error (st ++ [bad]) (length st) = Some bad) by (rewrite nth_error_app2, Nat.sub_diag by lia; reflexivity).
  assert (N2 : forall x, nth_error ((st ++ [bad]) ++ [x]) (length st) = Some bad) by (intro; rewrite nth_error_app1; [exact N1 | rewrite app_length; cbn; lia]).
  assert (N3 : forall y x, nth_error ((st ++ [y]) ++ [x]) (length (st ++ [bad])) = Some x).
  { intros y x. rewrite nth_error_app2; rewrite !app_length; cbn; [|lia]. rewrite Nat.sub_diag. reflexivity. }
  assert (P1 : forall x c, put (length st) c ((st ++ [bad]) ++ [x]) = (st ++ [c]) ++ [x]).
  { intros x c. rewrite <- !app_assoc. cbn [app]. clear. induction st as [|y st IH]; cbn [app put length]; [reflexivity | rewrite IH; reflexivity]. }
  assert (L : length (st ++ [[1; 7]]) = length (st ++ [bad])) by (rewrite !app_length; reflexivity).
  rewrite L. clear L.
  assert (H : header_fields (zlen bad) (stream_of bad) = Err ParseError) by apply bad_header.
  assert (F : find_c0 bad 0 = Some (bad, 0)) by reflexivity.
  Ltac go N1 N2 N3 H F P1 := rewrite run_cons; cbn [inside_step in_places in_store in_cur nth_error put_place put new_bytes];
    rewrite ?N1, ?N2, ?N3; cbn [use put_place put put_bytes in_store in_cur]; rewrite ?H, ?F, ?P1;
    cbn [handle is_read_error no_args put_place put skipn Z.to_nat Z.add].
  unfold half. destruct turn; cbn [negb repeat app].
  all: go N1 N2 N3 H F P1; go N1 N2 N3 H F P1; cbn [bad]; fold bad; do 5 go N1 N2 N3 H F P1; unfold bad_error at 1; go N1 N2 N3 H F P1; go N1 N2 N3 H F P1; unfold bad at 1; cbn [put_place put put_bytes]; rewrite P1; do 4 go N1 N2 N3 H F P1; reflexivity.
Qed.

(** the beginning: both find a wrong CRC; thread 1 pops, searches and stores, then thread 0 pops *)
Definition begin_busy : list InLabel :=
  by_bytes [192; 0; 1; 4; 2; 0; 0; 192] ++
  [ICall 0 [1]; IGo 0; IGo 0; ICall 1 [7]; IGo 1; IGo 1] ++ repeat (IGo 0) 7 ++ repeat (IGo 1) 13 ++ repeat (IGo 0) 5.
Lemma begin_ok lib sk : exists w, inside_run lib (inside_of (new_parser sk) 2) begin_busy = Some w /\ busy lib sk false w.
Proof.
  destruct lib, sk; eexists; (split; [vm_compute; reflexivity|]).
  all: eexists [_], _, _, _, _, _; (split; [|reflexivity]); reflexivity.
Qed.
Definition cycle : list InLabel := half false ++ half true.
Lemma cycles lib sk : forall n w, busy lib sk false w -> exists w', inside_run lib w (concat (repeat cycle n)) = Some w' /\ busy lib sk false w'.
Proof.
  induction n as [|n IH]; intros w B; [exists w; auto|]. cbn [repeat concat]. unfold cycle at 1.
  destruct (busy_half B) as (w1 & R1 & B1). destruct (busy_half B1) as (w2 & R2 & B2). destruct (IH w2 B2) as (w3 & R3 & B3).
  exists w3. split; [|exact B3]. rewrite !run_app, R1. cbn [negb] in R2. rewrite R2. exact R3.
Qed.
Lemma results_grow lib : forall ls w v, inside_run lib w ls = Some v -> exists more, in_results v = in_results w ++ more.
Proof.
  assert (P : forall i y w, in_results (put_place i y w) = in_results w) by (intros i y [? ? ? ? ? ? ? ?]; reflexivity).
  assert (B : forall r b w, in_results (put_bytes r b w) = in_results w) by (intros i y [? ? ? ? ? ? ? ?]; reflexivity).
  assert (N : forall b w, in_results (new_bytes b w) = in_results w) by (intros i [? ? ? ? ? ? ? ?]; reflexivity).
  assert (C : forall k w, in_results (count k w) = in_results w) by (intros k [? ? ? ? ? ? ? ?]; reflexivity).
  assert (D : forall i r w, in_results (finish i r w) = in_results w ++ [(i, r)]) by (intros i r [? ? ? ? ? ? ? ?]; reflexivity).
  assert (H : forall i e l w, exists more, in_results (handle lib i e l w) = in_results w ++ more).
  { intros i e l w. unfold handle. destruct (is_read_error lib e); [exists []; rewrite P, app_nil_r; reflexivity|].
    destruct (no_args e); [rewrite D; eauto | exists []; rewrite P, app_nil_r; reflexivity]. }
  assert (Z : forall w u : Inside, in_results w = in_results u -> exists more, in_results w = in_results u ++ more)
    by (intros w u E; exists []; rewrite app_nil_r; exact E).
  assert (U : forall i u r b l w, exists more, in_results (use lib i u r b l w) = in_results w ++ more).
  { intros i u r b l w. destruct u as [msg| | |s|t m n|e|e|e k|e|[[[t m] n]|]]; cbn [use];
      try (apply Z; rewrite ?P, ?B; reflexivity).
    - destruct (header_fields (zlen b) (stream_of s)) as [[[[[[[counter t] len] c1] c2] payload] s']|e]; [|apply H].
      destruct (calculate_crc payload) as [h o].
      match goal with |- context[match ?x with Ok _ => _ | Err _ => _ end] => destruct x as [[m n]|e] end.
      + apply Z. rewrite P. apply C.
      + destruct (H i e l (count counter w)) as [more M]. exists more. rewrite M, C. reflexivity.
    - destruct b; apply Z; rewrite ?P, ?B; reflexivity.
    - rewrite D. eauto. }
  induction ls as [|x ls IH]; intros w v R; [cbn in R; injection R as <-; exists []; rewrite app_nil_r; reflexivity|].
  rewrite run_cons in R. destruct (inside_step lib w x) as [w1|] eqn:S; [|discriminate]. apply IH in R as [m M].
  assert (K : exists more, in_results w1 = in_results w ++ more).
  { destruct x as [i msg|i]; cbn [inside_step] in S; destruct (nth_error (in_places w) i) as [y|]; try discriminate.
    - destruct y; try discriminate. injection S as <-. apply Z, P.
    - destruct y as [|u l|u r l|b [t m' k|e] l]; try discriminate.
      + injection S as <-. apply Z, P.
      + destruct (nth_error (in_store w) r); [|discriminate]. injection S as <-. apply U.
      + injection S as <-. apply Z. rewrite P. apply N.
      + injection S as <-. apply Z. rewrite P. apply N. }
  destruct K as [m1 K]. exists (m1 ++ m). rewrite M, K, app_assoc. reflexivity.
Qed.

Definition endless (k : nat) : InLabel := nth k (begin_busy ++ concat (repeat cycle k)) (IGo 0).
Lemma cycles_length n : length (concat (repeat cycle n)) = (26 * n)%nat.
Proof. induction n as [|n IH]; [reflexivity|]. cbn [repeat concat]. rewrite app_length, IH. change (length cycle) with 26%nat. lia. Qed.
Lemma cycles_more a b : concat (repeat cycle (a + b)) = concat (repeat cycle a) ++ concat (repeat cycle b).
Proof. rewrite repeat_app, concat_app. reflexivity. Qed.
Lemma begin_length : length begin_busy = 119%nat. Proof. reflexivity. Qed.
Lemma endless_nth k n : (k <= n)%nat -> endless k = nth k (begin_busy ++ concat (repeat cycle n)) (IGo 0).
Proof.
  intro L. unfold endless. replace n with (k + (n - k))%nat by lia. rewrite cycles_more, app_assoc. symmetry. apply app_nth1.
  rewrite app_length, begin_length, cycles_length. lia.
Qed.
Lemma endless_first k : first_labels endless k = firstn k (begin_busy ++ concat (repeat cycle k)).
Proof.
  apply nth_ext with (d := IGo 0) (d' := IGo 0).
  - unfold first_labels. rewrite map_length, seq_length, firstn_length, app_length, cycles_length. lia.
  - intros j J. unfold first_labels in *. rewrite map_length, seq_length in J.
    rewrite nth_indep with (d' := endless 0) by (rewrite map_length, seq_length; exact J).
    rewrite map_nth, seq_nth by exact J. cbn [Nat.add]. rewrite (@endless_nth j k) by lia.
    rewrite <- (firstn_skipn k (begin_busy ++ concat (repeat cycle k))) at 1. apply app_nth1.
    rewrite firstn_length, app_length, begin_length, cycles_length. lia.
Qed.
Lemma given_cycles n : given (concat (repeat cycle n)) = [].
Proof. induction n as [|n IH]; [reflexivity|]. cbn [repeat concat]. rewrite given_app, IH. reflexivity. Qed.
Lemma endless_goes i : (i < 2)%nat -> goes_on endless i.
Proof.
  intros L k.
  assert (E : forall j, (j < 26)%nat -> endless (119 + 26 * k + j) = nth j cycle (IGo 0)).
  { intros j J. rewrite (@endless_nth _ (k + (1 + (118 + 25 * k + j)))%nat) by lia. rewrite cycles_more, app_assoc.
    rewrite app_nth2 by (rewrite app_length, begin_length, cycles_length; lia).
    rewrite app_length, begin_length, cycles_length. replace (119 + 26 * k + j - (119 + 26 * k))%nat with j by lia.
    change (repeat cycle (1 + (118 + 25 * k + j))) with (cycle :: repeat cycle (118 + 25 * k + j)). cbn [concat].
    apply app_nth1. exact J. }
  destruct i as [|[|i]]; [| |lia].
  - exists (119 + 26 * k + 7)%nat. split; [lia|]. rewrite E by lia. reflexivity.
  - exists (119 + 26 * k + 0)%nat. split; [lia|]. rewrite E by lia. reflexivity.
Qed.
Lemma bytewise_firstn k ls : bytewise ls -> bytewise (firstn k ls).
Proof. unfold bytewise. rewrite !Forall_forall. intros H x X. apply H. rewrite <- (firstn_skipn k ls). apply in_or_app. auto. Qed.
Lemma bytewise_cycles n : bytewise (concat (repeat cycle n)).
Proof. induction n as [|n IH]; [constructor|]. cbn [repeat concat]. apply Forall_app. split; [repeat constructor | exact IH]. Qed.
Lemma inside_endless : forall lib sk, exists f, goes_on f 0 /\ goes_on f 1
  /\ forall k, exists w more, inside_run lib (inside_of (new_parser sk) 2) (first_labels f k) = Some w
     /\ bytewise (first_labels f k) /\ given (first_labels f k) ++ more = [192; 0; 1; 4; 2; 0; 0; 192; 1; 7]
     /\ (length (in_results w) <= 8)%nat.
Proof.
  intros lib sk. exists endless. split; [apply endless_goes; lia|]. split; [apply endless_goes; lia|]. intro k.
  rewrite endless_first. set (all := begin_busy ++ concat (repeat cycle k)).
  destruct (begin_ok lib sk) as (w0 & R0 & B0). destruct (cycles k B0) as (w1 & R1 & B1).
  assert (R : inside_run lib (inside_of (new_parser sk) 2) all = Some w1) by (unfold all; rewrite run_app, R0; exact R1).
  assert (G : given all = [192; 0; 1; 4; 2; 0; 0; 192; 1; 7]) by (unfold all; rewrite given_app, given_cycles; reflexivity).
  assert (Y : bytewise all) by (apply Forall_app; split; [vm_compute; repeat constructor | apply bytewise_cycles]).
  apply (bytewise_firstn k) in Y.
  rewrite <- (firstn_skipn k all) in R, G. rewrite run_app in R. rewrite given_app in G.
  destruct (inside_run lib (inside_of (new_parser sk) 2) (firstn k all)) as [w|]; [|discriminate].
  exists w, (given (skipn k all)). split; [reflexivity|]. split; [exact Y|]. split; [exact G|].
  apply results_grow in R as [more M]. destruct B1 as (st & d & e & l & l' & rs & Lr & ->). cbn [in_results] in M.
  subst rs. rewrite app_length in Lr. lia.
Qed.

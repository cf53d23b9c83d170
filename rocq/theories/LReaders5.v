(** Lemmas for any number of reader threads: schedules that show the bounds are met. *)
From Coq Require Import Lia Arith.
From Verif Require Import SReaders LReaders LReaders2 LReaders3 LReaders4.
Set Implicit Arguments.

Definition quiet (ts : list KThread) : Port := mkPort true [] false true ts (length ts - 1) [CNone].
Lemma set_mid A (p : list A) x q y : set_nth (length p) y (p ++ x :: q) = p ++ y :: q.
Proof. induction p as [|z p IH]; cbn; [reflexivity|]. rewrite IH. reflexivity. Qed.
Lemma nth_mid A (p : list A) x q : nth_error (p ++ x :: q) (length p) = Some x.
Proof. induction p as [|z p IH]; cbn; [reflexivity | exact IH]. Qed.
Lemma port_step_then w l v r : port_step w l = Some v -> port_run w (l :: r) = port_run v r.
Proof. intro H. cbn [port_run]. rewrite H. reflexivity. Qed.

Lemma start_one ts : ts <> [] -> port_run (quiet ts) [KStart (App 0); KGoOn (App 0); KGoOn (App 0)] = Some (quiet (ts ++ [KTop])).
Proof.
  intro N. unfold quiet.
  erewrite port_step_then by reflexivity. cbn [set_call set_active set_nth].
  erewrite port_step_then by reflexivity. cbn [create set_call set_nth].
  cbn [port_run port_step the_call nth_error k_apps k_threads k_last].
  rewrite nth_mid. cbn [set_call set_reader set_nth]. rewrite set_mid. do 2 f_equal.
  rewrite app_length. cbn. lia.
Qed.
Lemma start_many n : forall ts, ts <> [] -> port_run (quiet ts) (start_more n) = Some (quiet (ts ++ repeat KTop n)).
Proof.
  induction n as [|n IH]; intros ts N; [cbn; rewrite app_nil_r; reflexivity|].
  unfold start_more. cbn [repeat concat]. rewrite port_run_app, start_one by exact N. fold (start_more n). rewrite IH.
  - rewrite <- app_assoc. reflexivity.
  - destruct ts; discriminate.
Qed.
Lemma starts_more n : starts (start_more n) = n /\ came (start_more n) = [].
Proof.
  induction n as [|n [IH1 IH2]]; [split; reflexivity|]. unfold start_more. cbn [repeat concat]. fold (start_more n).
  rewrite starts_app, came_app, IH1, IH2. split; reflexivity.
Qed.
Lemma handed_start n : forall w, handed w (start_more n) = [].
Proof.
  assert (A : forall ls w, Forall (fun l => match l with KLoop _ => False | _ => True end) ls -> handed w ls = []).
  { induction ls as [|l ls IH]; intros w F; [reflexivity|]. inversion F as [|? ? Hl F']; subst. cbn [handed].
    destruct (port_step w l); [rewrite IH by exact F'|]; destruct l; try reflexivity; contradiction. }
  intro w. apply A. induction n as [|n IH]; [constructor|]. unfold start_more. cbn [repeat concat]. fold (start_more n).
  apply Forall_app. split; [repeat constructor | exact IH].
Qed.

Lemma quiet_len p t q u : quiet (p ++ t :: q) = mkPort true [] false true (p ++ t :: q) (length (p ++ u :: q) - 1) [CNone].
Proof. unfold quiet. do 2 f_equal. rewrite !app_length. reflexivity. Qed.
Lemma take_one p q b : port_run (quiet (p ++ KTop :: q)) (takes (length p) b) = Some (quiet (p ++ KGot b :: q))
  /\ forall r, handed (quiet (p ++ KTop :: q)) (takes (length p) b ++ r) = handed (quiet (p ++ KGot b :: q)) r.
Proof.
  assert (R : port_run (quiet (p ++ KTop :: q)) (takes (length p) b) = Some (quiet (p ++ KGot b :: q))
    /\ handed (quiet (p ++ KTop :: q)) (takes (length p) b) = []).
  { unfold takes. rewrite (quiet_len p (KGot b) q KTop). unfold quiet. generalize (length (p ++ KTop :: q) - 1)%nat. intro l.
    cbn [port_run handed handed_by port_step k_threads k_active]. rewrite nth_mid. cbn [app].
    unfold set_reader. rewrite set_mid. cbn [k_open set_input k_input app k_threads k_cancelled negb]. rewrite nth_mid, set_mid.
    split; reflexivity. }
  destruct R as [R H]. split; [exact R|]. intro r. rewrite (handed_app _ _ _ R), H. reflexivity.
Qed.
Lemma hand_one p q b : port_run (quiet (p ++ KGot b :: q)) (hands (length p)) = Some (quiet (p ++ KTop :: q))
  /\ forall r, handed (quiet (p ++ KGot b :: q)) (hands (length p) ++ r) = b :: handed (quiet (p ++ KTop :: q)) r.
Proof.
  assert (R : port_run (quiet (p ++ KGot b :: q)) (hands (length p)) = Some (quiet (p ++ KTop :: q))
    /\ handed (quiet (p ++ KGot b :: q)) (hands (length p)) = [b]).
  { unfold hands. rewrite (quiet_len p KTop q (KGot b)). unfold quiet. generalize (length (p ++ KGot b :: q) - 1)%nat. intro l.
    cbn [port_run handed handed_by port_step k_threads k_active]. rewrite nth_mid. cbn [app].
    unfold set_reader. rewrite set_mid. cbn [k_threads]. rewrite nth_mid, set_mid. split; reflexivity. }
  destruct R as [R H]. split; [exact R|]. intro r. rewrite (handed_app _ _ _ R), H. reflexivity.
Qed.

(** every reader takes one byte *)
Fixpoint take_all (i : nat) (bs : list Z) : list PortLabel :=
  match bs with [] => [] | b :: r => takes i b ++ take_all (S i) r end.
Lemma take_many bs : forall p, port_run (quiet (p ++ repeat KTop (length bs))) (take_all (length p) bs) = Some (quiet (p ++ map KGot bs))
  /\ forall r, handed (quiet (p ++ repeat KTop (length bs))) (take_all (length p) bs ++ r) = handed (quiet (p ++ map KGot bs)) r.
Proof.
  induction bs as [|b bs IH]; intro p; [split; reflexivity|]. cbn [length repeat take_all map].
  destruct (take_one p (repeat KTop (length bs)) b) as [T H]. specialize (IH (p ++ [KGot b])).
  replace (length (p ++ [KGot b])) with (S (length p)) in IH by (rewrite app_length; cbn; lia).
  rewrite <- !app_assoc in IH. cbn [app] in IH. destruct IH as [IH1 IH2]. split.
  - rewrite port_run_app, T. exact IH1.
  - intro r. rewrite <- app_assoc, H. apply IH2.
Qed.
Lemma take_all_spec bs : forall i, starts (take_all i bs) = 0%nat /\ came (take_all i bs) = bs.
Proof.
  induction bs as [|b bs IH]; intro i; [split; reflexivity|]. cbn [take_all]. rewrite starts_app, came_app.
  destruct (IH (S i)) as [-> ->]. split; reflexivity.
Qed.
(** a byte overtakes one for every further [start_reading] *)
Lemma overtakes bs last : exists ls w, port_run (new_port 1) ls = Some w /\ starts ls = length bs
  /\ came ls = bs ++ [last] /\ handed (new_port 1) ls = [last].
Proof.
  set (all := bs ++ [last]). exists (start_more (length bs) ++ take_all 0 all ++ hands (length bs)), (quiet (map KGot bs ++ [KTop])).
  change (new_port 1) with (quiet [KTop]).
  assert (St : port_run (quiet [KTop]) (start_more (length bs)) = Some (quiet (repeat KTop (length all)))).
  { rewrite start_many by discriminate. unfold all. rewrite app_length. cbn [length]. rewrite Nat.add_1_r. reflexivity. }
  destruct (take_many all []) as [T H]. cbn [app length] in T, H.
  assert (E : map KGot all = map KGot bs ++ [KGot last]) by (unfold all; rewrite map_app; reflexivity). rewrite E in T, H.
  destruct (hand_one (map KGot bs) [] last) as [T2 H2]. rewrite map_length in T2, H2.
  split; [rewrite port_run_app, St, port_run_app, T; exact T2|].
  destruct (starts_more (length bs)) as [S1 C1]. destruct (take_all_spec all 0) as [S2 C2].
  split; [rewrite !starts_app, S1, S2; unfold starts; cbn; lia|].
  split; [rewrite !came_app, C1, C2; cbn; apply app_nil_r|].
  rewrite (handed_app _ _ _ St), handed_start, H. specialize (H2 []). rewrite app_nil_r in H2. rewrite H2. reflexivity.
Qed.
(** with one further [start_reading] a byte is overtaken by any number of others *)
Fixpoint pass_by (bs : list Z) : list PortLabel :=
  match bs with [] => [] | b :: r => takes 1 b ++ hands 1 ++ pass_by r end.
Lemma passing first bs : port_run (quiet [KGot first; KTop]) (pass_by bs) = Some (quiet [KGot first; KTop])
  /\ forall r, handed (quiet [KGot first; KTop]) (pass_by bs ++ r) = bs ++ handed (quiet [KGot first; KTop]) r.
Proof.
  induction bs as [|b bs [IH1 IH2]]; [split; reflexivity|].
  destruct (take_one [KGot first] [] b) as [T H]. destruct (hand_one [KGot first] [] b) as [T2 H2].
  cbn [app length pass_by] in *. split.
  - change (port_run (quiet [KGot first; KTop]) (takes 1 b ++ hands 1 ++ pass_by bs) = Some (quiet [KGot first; KTop])).
    rewrite port_run_app, T, port_run_app, T2. exact IH1.
  - intro r. change (handed (quiet [KGot first; KTop]) ((takes 1 b ++ hands 1 ++ pass_by bs) ++ r) = b :: bs ++ handed (quiet [KGot first; KTop]) r).
    rewrite <- !app_assoc, H, H2, IH2. reflexivity.
Qed.
Lemma passing_spec bs : starts (pass_by bs) = 0%nat /\ came (pass_by bs) = bs.
Proof.
  induction bs as [|b bs [IH1 IH2]]; [split; reflexivity|]. cbn [pass_by]. rewrite !starts_app, !came_app, IH1, IH2. split; reflexivity.
Qed.
Lemma overtaken first bs : exists ls w, port_run (new_port 1) ls = Some w /\ starts ls = 1%nat
  /\ came ls = first :: bs /\ handed (new_port 1) ls = bs ++ [first].
Proof.
  exists (start_more 1 ++ takes 0 first ++ pass_by bs ++ hands 0), (quiet [KTop; KTop]).
  change (new_port 1) with (quiet [KTop]).
  assert (St : port_run (quiet [KTop]) (start_more 1) = Some (quiet [KTop; KTop])) by (rewrite start_many by discriminate; reflexivity).
  destruct (take_one [] [KTop] first) as [T H]. destruct (hand_one [] [KTop] first) as [T2 H2]. cbn [app length] in *.
  destruct (passing first bs) as [P1 P2]. destruct (passing_spec bs) as [S2 C2].
  split; [rewrite port_run_app, St, port_run_app, T, port_run_app, P1; exact T2|].
  split; [rewrite !starts_app, S2; reflexivity|].
  split; [rewrite !came_app, C2; cbn; rewrite app_nil_r; reflexivity|].
  rewrite (handed_app _ _ _ St), handed_start, H, P2. specialize (H2 []). rewrite app_nil_r in H2. rewrite H2. reflexivity.
Qed.
(** after [stop_reading] has returned every other reader still hands over a byte *)
Fixpoint go_all (i n : nat) : list PortLabel := match n with O => [] | S n => KLoop i :: go_all (S i) n end.
Lemma go_many n : forall p l, port_run (mkPort true [] false true (p ++ repeat KTop n) l [CNone]) (go_all (length p) n)
  = Some (mkPort true [] false true (p ++ repeat KRead n) l [CNone]).
Proof.
  induction n as [|n IH]; intros p l; [reflexivity|]. cbn [go_all repeat].
  erewrite port_step_then.
  2:{ cbn [port_step k_threads k_active]. rewrite nth_mid. cbn [set_reader]. rewrite set_mid. reflexivity. }
  specialize (IH (p ++ [KRead]) l). rewrite app_length in IH. cbn [length] in IH. rewrite Nat.add_1_r in IH.
  rewrite <- !app_assoc in IH. exact IH.
Qed.
Lemma go_spec n : forall i, starts (go_all i n) = 0%nat /\ came (go_all i n) = [].
Proof. induction n as [|n IH]; intro i; [split; reflexivity|]. apply (IH (S i)). Qed.
Definition stop_last (n : nat) : list PortLabel :=
  [KStop (App 0); KGoOn (App 0); KLoop n; KLoop n; KGoOn (App 0); KGoOn (App 0)].
Lemma stopping p : port_run (mkPort true [] false true (p ++ [KRead]) (length p) [CNone]) (stop_last (length p))
  = Some (mkPort false [] false true (p ++ [KEnded]) (length p) [CNone]).
Proof.
  unfold stop_last.
  erewrite port_step_then by reflexivity. cbn [set_call set_active set_nth].
  erewrite port_step_then by reflexivity. cbn [set_call set_cancelled set_nth k_open].
  erewrite port_step_then.
  2:{ cbn [port_step k_threads k_open k_cancelled negb]. rewrite nth_mid. cbn [set_cancelled set_reader]. rewrite set_mid. reflexivity. }
  erewrite port_step_then.
  2:{ cbn [port_step k_threads k_active]. rewrite nth_mid. cbn [set_reader]. rewrite set_mid. reflexivity. }
  erewrite port_step_then by reflexivity. cbn [set_call set_nth k_last].
  erewrite port_step_then; [|cbn [port_step the_call nth_error k_apps k_threads]; rewrite nth_mid; reflexivity].
  reflexivity.
Qed.
Fixpoint late_bytes (i : nat) (bs : list Z) : list PortLabel :=
  match bs with [] => [] | b :: r => [KArrive b; KLoop i; KLoop i] ++ late_bytes (S i) r end.
Lemma late_many l q bs : forall p, exists w, port_run (mkPort false [] false true (p ++ repeat KRead (length bs) ++ q) l [CNone]) (late_bytes (length p) bs) = Some w
  /\ handed (mkPort false [] false true (p ++ repeat KRead (length bs) ++ q) l [CNone]) (late_bytes (length p) bs) = bs.
Proof.
  induction bs as [|b bs IH]; intro p; [eexists; split; reflexivity|]. cbn [length repeat late_bytes app].
  destruct (IH (p ++ [KBusy CNone])) as (w & R & H). rewrite app_length in R, H. cbn [length] in R, H. rewrite Nat.add_1_r in R, H.
  rewrite <- !app_assoc in R, H. cbn [app] in R, H. exists w.
  set (u := mkPort false [] false true (p ++ KBusy CNone :: repeat KRead (length bs) ++ q) l [CNone]) in *.
  assert (A : forall r, port_run (mkPort false [] false true (p ++ KRead :: repeat KRead (length bs) ++ q) l [CNone])
       (KArrive b :: KLoop (length p) :: KLoop (length p) :: r) = port_run u r
     /\ handed (mkPort false [] false true (p ++ KRead :: repeat KRead (length bs) ++ q) l [CNone])
       (KArrive b :: KLoop (length p) :: KLoop (length p) :: r) = b :: handed u r).
  { intro r. cbn [port_run handed handed_by port_step k_threads k_open k_input k_cancelled set_input app negb]. rewrite nth_mid.
    unfold set_reader. rewrite set_mid. cbn [k_threads]. rewrite nth_mid, set_mid. split; reflexivity. }
  destruct (A (late_bytes (S (length p)) bs)) as [-> ->]. rewrite H. split; [exact R | reflexivity].
Qed.
Lemma late_spec bs : forall i, starts (late_bytes i bs) = 0%nat /\ came (late_bytes i bs) = bs.
Proof.
  induction bs as [|b bs IH]; intro i; [split; reflexivity|]. cbn [late_bytes]. rewrite starts_app, came_app.
  destruct (IH (S i)) as [-> ->]. split; reflexivity.
Qed.
Lemma still_handed bs : exists ls v rest w, port_run (new_port 1) ls = Some v /\ starts ls = length bs
  /\ the_call v (App 0) = Some CNone /\ k_active v = false
  /\ port_run v rest = Some w /\ starts rest = 0%nat /\ came rest = bs /\ handed v rest = bs.
Proof.
  set (n := length bs). set (v := mkPort false [] false true (repeat KRead n ++ [KEnded]) n [CNone]).
  destruct (late_many n [KEnded] bs []) as (w & R & H). cbn [app length] in R, H. fold n in R, H. fold v in R, H.
  exists (start_more n ++ go_all 0 (S n) ++ stop_last n), v, (late_bytes 0 bs), w.
  change (new_port 1) with (quiet [KTop]).
  split.
  - rewrite port_run_app, start_many by discriminate. rewrite port_run_app. unfold quiet.
    replace (length ([KTop] ++ repeat KTop n) - 1)%nat with n by (cbn; rewrite repeat_length; lia).
    change ([KTop] ++ repeat KTop n) with ([] ++ repeat KTop (S n)). change 0%nat with (length (@nil KThread)) at 1.
    rewrite go_many. cbn [app]. replace (repeat KRead (S n)) with (repeat KRead n ++ [KRead]) by (rewrite <- repeat_cons; reflexivity).
    pose proof (stopping (repeat KRead n)) as S. rewrite repeat_length in S. exact S.
  - destruct (starts_more n) as [S1 C1]. destruct (go_spec (S n) 0) as [S2 C2]. destruct (late_spec bs 0) as [S3 C3].
    split; [rewrite !starts_app, S1, S2; unfold starts; cbn; lia|]. split; [reflexivity|]. split; [reflexivity|].
    split; [exact R|]. split; [exact S3|]. split; [exact C3 | exact H].
Qed.

(** * Without a further [start_reading] *)
Lemma run_single n ls w : port_run (new_port n) ls = Some w -> starts ls = 0%nat ->
  came ls = handed (new_port n) ls ++ held w ++ k_input w.
Proof.
  intros R St. apply run_plain; [exact R|]. intros pre post v -> Rv. rewrite starts_app in St.
  destruct (run_live _ _ Rv). lia.
Qed.
Lemma callback_stops n ls i v : port_run (new_port n) (ls ++ [KStop (Reader i)]) = Some v -> starts ls = 0%nat ->
  (exists w, port_run v [KGoOn (Reader i); KGoOn (Reader i); KGoOn (Reader i)] = Some w /\ the_call w (Reader i) = Some CNone)
  /\ forall rest w, starts rest = 0%nat -> port_run v rest = Some w -> handed v rest = [].
Proof.
  intros R St. pose proof (run_threads _ _ R) as T. rewrite starts_app, St in T. cbn in T.
  pose proof (run_orderly _ _ R) as [O _].
  destruct (port_run_snoc _ _ _ R) as (u & Ru & S). cbn [port_step] in S.
  destruct (the_call u (Reader i)) as [[]|] eqn:E; try discriminate. injection S as <-.
  cbn [the_call] in E. destruct (nth_error (k_threads u) i) as [t|] eqn:Et; [|discriminate]. destruct t; try discriminate.
  assert (L : length (k_threads u) = 1%nat).
  { pose proof (run_threads _ _ Ru) as Tu. rewrite St in Tu.
    assert (nth_error (k_threads u) i <> None) as N by congruence. apply nth_error_Some in N. lia. }
  destruct u as [a inp cn o [|t [|t2 ts]] la aps]; try discriminate L.
  destruct i as [|i]; [|destruct i; discriminate Et]. cbn [nth_error k_threads] in Et. injection Et as ->.
  cbn [set_active set_call set_nth k_last k_threads length] in *. assert (la = 0)%nat as -> by lia. split.
  - eexists. split; reflexivity.
  - intros rest w Sr Rr. destruct (run_in_read _ _ Rr eq_refl Sr) as [_ H].
    destruct (handed _ rest) as [|b r]; [reflexivity|]. cbn in H. lia.
Qed.
Lemma comes_to_rest w : exists most, forall ls v, Forall own_step ls -> port_run w ls = Some v -> (length ls <= most)%nat.
Proof. exists (work w). intros ls v F R. pose proof (run_work _ R F). lia. Qed.

(** Threads that send one after the other. *)
From Coq Require Import ZifyBool ZifyNat.
From Verif Require Import LBits LBytes LTraffic LSend LSerialProps SThreads LThreads.
Open Scope list_scope.
Open Scope Z_scope.

Lemma set_twice {A} (l : list A) : forall i (x y z : A), nth_error l i = Some z -> set_nth i x (set_nth i y l) = set_nth i x l.
Proof.
  induction l as [|a l IH]; intros [|i] x y z H; try discriminate; [reflexivity|].
  cbn in H. specialize (IH i x y z H). unfold set_nth in *. cbn. f_equal. exact IH.
Qed.
Lemma run_app s a b : threads_run s (a ++ b) = match threads_run s a with Some s' => threads_run s' b | None => None end.
Proof. revert s. induction a as [|i a IH]; intros s; [reflexivity|]. cbn [app threads_run]. destruct (thread_step s i); [apply IH | reflexivity]. Qed.

Lemma writes ths i t a todo log c : nth_error ths i = Some t -> forall f w,
  threads_run (mkShared c (Some i) w (set_nth i (mkThread todo (TWrite a f) log) ths)) (repeat i (S (length f)))
  = Some (mkShared c None (w ++ f) (set_nth i (mkThread todo TIdle (log ++ [(Ok a, None)])) ths)).
Proof.
  intros E. induction f as [|b f IH]; intros w.
  - cbn [length repeat threads_run]. unfold thread_step. cbn [sh_threads]. rewrite (nth_set_same _ _ _ _ E).
    cbn [t_pc t_todo t_log sh_counter sh_wire sh_lock]. rewrite (set_twice _ _ _ _ _ E), app_nil_r. reflexivity.
  - change (repeat i (S (length (b :: f)))) with (i :: repeat i (S (length f))). cbn [threads_run]. unfold thread_step at 1.
    cbn [sh_threads]. rewrite (nth_set_same _ _ _ _ E). cbn [t_pc t_todo t_log sh_counter sh_wire sh_lock].
    rewrite (set_twice _ _ _ _ _ E), IH, <- app_assoc. reflexivity.
Qed.
Lemma turn s i t a r : nth_error (sh_threads s) i = Some t -> t_pc t = TIdle -> t_todo t = Ok a :: r ->
  sh_lock s = None -> is_byte (sh_counter s) -> is_payload a ->
  exists n p' f, build_serial_frame (mkSP [] true (sh_counter s) 0 0) (Ok a) = (p', Ok f)
  /\ threads_run s (repeat i n) = Some (mkShared (sp_up p') None (sh_wire s ++ f) (set_nth i (mkThread r TIdle (t_log t ++ [(Ok a, None)])) (sh_threads s))).
Proof.
  intros E P T K B Pa. pose proof (built_ok _ _ B Pa) as Bu. unfold built in Bu.
  destruct (build_serial_frame (mkSP [] true (sh_counter s) 0 0) (Ok a)) as [p' rf] eqn:Bs. cbn [snd] in Bu. subst rf.
  assert (U : sp_up p' = if 255 <? sh_counter s + 1 then 0 else sh_counter s + 1).
  { clear - Bs. unfold build_serial_frame in Bs. cbn [sp_up rbind] in Bs. unfold yield1 in Bs.
    destruct ((0 <=? sh_counter s) && (sh_counter s <=? 255)); cbn [rbind] in Bs; [|discriminate].
    cbn [Z.leb Z.compare andb Pos.compare Pos.compare_cont rbind] in Bs.
    destruct ((0 <=? zlen a) && (zlen a <=? 255)); cbn [rbind] in Bs; [|discriminate].
    destruct (calculate_crc a). injection Bs as <- _. reflexivity. }
  set (f := frame (sh_counter s) 1 a) in *.
  destruct s as [c lk w ths]. cbn [sh_counter sh_lock sh_wire sh_threads] in *. subst lk.
  assert (G : threads_run (mkShared c None w ths) (repeat i 5) =
    Some (mkShared (c + 1) None w (set_nth i (mkThread r (if 255 <? c + 1 then TReset a f else TLock a f) (t_log t)) ths))).
  { cbn [repeat threads_run]. unfold thread_step at 1. cbn [sh_threads]. rewrite E. cbv zeta. rewrite P, T. cbn [sh_counter sh_lock sh_wire].
    unfold thread_step at 1. cbn [sh_threads]. rewrite (nth_set_same _ _ _ _ E). cbv zeta. cbn [t_pc t_todo t_log sh_counter sh_wire sh_lock].
    unfold built. rewrite Bs. cbn [snd]. rewrite (set_twice _ _ _ _ _ E).
    unfold thread_step at 1. cbn [sh_threads]. rewrite (nth_set_same _ _ _ _ E). cbv zeta. cbn [t_pc t_todo t_log sh_counter sh_wire sh_lock].
    rewrite (set_twice _ _ _ _ _ E).
    unfold thread_step at 1. cbn [sh_threads]. rewrite (nth_set_same _ _ _ _ E). cbv zeta. cbn [t_pc t_todo t_log sh_counter sh_wire sh_lock].
    rewrite (set_twice _ _ _ _ _ E).
    unfold thread_step at 1. cbn [sh_threads]. rewrite (nth_set_same _ _ _ _ E). cbv zeta. cbn [t_pc t_todo t_log sh_counter sh_wire sh_lock].
    rewrite (set_twice _ _ _ _ _ E). reflexivity. }
  assert (H : forall c', threads_run (mkShared c' None w (set_nth i (mkThread r (TLock a f) (t_log t)) ths)) (repeat i (2 + length f))
    = Some (mkShared c' None (w ++ f) (set_nth i (mkThread r TIdle (t_log t ++ [(Ok a, None)])) ths))).
  { intros c'. change (repeat i (2 + length f)) with (i :: repeat i (S (length f))). cbn [threads_run].
    unfold thread_step at 1. cbn [sh_threads]. rewrite (nth_set_same _ _ _ _ E). cbv zeta. cbn [t_pc t_todo t_log sh_counter sh_wire sh_lock].
    rewrite (set_twice _ _ _ _ _ E). apply (writes _ _ _ _ _ _ _ E). }
  destruct (255 <? c + 1) eqn:W.
  - exists (5 + (1 + (2 + length f)))%nat, p', f. split; [reflexivity|]. rewrite U.
    rewrite repeat_app, run_app, G, repeat_app, run_app. cbn [repeat threads_run].
    unfold thread_step at 1. cbn [sh_threads]. rewrite (nth_set_same _ _ _ _ E). cbv zeta. cbn [t_pc t_todo t_log sh_counter sh_wire sh_lock].
    rewrite (set_twice _ _ _ _ _ E). apply H.
  - exists (5 + (2 + length f))%nat, p', f. split; [reflexivity|]. rewrite U, repeat_app, run_app, G. apply H.
Qed.
Lemma build_up p a p' f : build_serial_frame p (Ok a) = (p', Ok f) -> is_byte (sp_up p) -> is_byte (sp_up p').
Proof.
  unfold build_serial_frame. cbn [rbind]. unfold yield1. intros E B.
  destruct ((0 <=? sp_up p) && (sp_up p <=? 255)); cbn [rbind] in E; [|discriminate].
  cbn [Z.leb Z.compare andb Pos.compare Pos.compare_cont rbind] in E.
  destruct ((0 <=? zlen a) && (zlen a <=? 255)); cbn [rbind] in E; [|discriminate].
  destruct (calculate_crc a). injection E as <- _. cbn [sp_up]. unfold is_byte in *. destruct (255 <? sp_up p + 1) eqn:W; lia.
Qed.
Lemma build_state p a p' f : build_serial_frame p (Ok a) = (p', Ok f) -> p' = mkSP (sp_buf p) (sp_skip p) (sp_up p') (sp_down p) (sp_errs p).
Proof.
  unfold build_serial_frame. cbn [rbind]. destruct (let! c := yield1 (sp_up p) in _) as [g|e]; intros E; [|discriminate]. injection E as <- _. reflexivity.
Qed.
Lemma Forall_part {A} (P : A -> Prop) (l : list A) n : Forall P l -> Forall P (firstn n l).
Proof. intros F. revert n. induction F; intros [|n]; cbn [firstn]; constructor; auto. Qed.
Lemma Forall_tail {A} (P : A -> Prop) (l : list A) n : Forall P l -> Forall P (skipn n l).
Proof. intros F. revert n. induction F; intros [|n]; cbn [skipn]; try constructor; auto. Qed.
Lemma in_turns order : forall s l programs, 
  map t_todo (sh_threads s) = programs -> Forall (fun t => t_pc t = TIdle) (sh_threads s) ->
  sh_lock s = None -> is_byte (sh_counter s) ->
  in_turn programs order = Some (map Ok l) -> Forall is_payload l ->
  exists sched s' fs p', threads_run s sched = Some s'
    /\ sends (mkSP [] true (sh_counter s) 0 0) (map Ok l) fs p' /\ sh_wire s' = sh_wire s ++ concat fs /\ sh_counter s' = sp_up p'
    /\ sh_lock s' = None /\ Forall (fun t => t_pc t = TIdle) (sh_threads s').
Proof.
  induction order as [|i order IH]; intros s l programs M Fi K B Tn Fl; cbn [in_turn] in Tn.
  - destruct l; [|discriminate]. exists [], s, [], (mkSP [] true (sh_counter s) 0 0). cbn [concat map]. rewrite app_nil_r. repeat split; try assumption. constructor.
  - destruct (nth_error programs i) as [[|x r]|] eqn:En; try discriminate.
    destruct (in_turn (set_nth i r programs) order) as [l'|] eqn:Er; [|discriminate].
    destruct l as [|a l]; [discriminate|]. injection Tn as -> ->. inversion Fl as [|? ? Pa Fl']; subst.
    rewrite nth_error_map in En. destruct (nth_error (sh_threads s) i) as [t|] eqn:Et; [|discriminate]. injection En as Tt.
    assert (Pt : t_pc t = TIdle) by (rewrite Forall_forall in Fi; apply Fi; eapply nth_error_In; exact Et).
    destruct (turn s i t a r Et Pt Tt K B Pa) as (n & p1 & f & Bs & R1).
    pose proof (build_up _ _ _ _ Bs B) as B1. pose proof (build_state _ _ _ _ Bs) as S1. cbn [sp_buf sp_skip sp_down sp_errs] in S1.
    set (ths := set_nth i (mkThread r TIdle (t_log t ++ [(Ok a, None)])) (sh_threads s)) in *.
    assert (M1 : map t_todo ths = set_nth i r (map t_todo (sh_threads s))).
    { unfold ths, set_nth. rewrite map_app, firstn_map, skipn_map. reflexivity. }
    assert (F1 : Forall (fun t => t_pc t = TIdle) ths).
    { unfold ths, set_nth. apply Forall_app. split; [apply Forall_part; exact Fi|]. constructor; [reflexivity|]. apply Forall_tail. exact Fi. }
    destruct (IH (mkShared (sp_up p1) None (sh_wire s ++ f) ths) l _ M1 F1 eq_refl B1 Er Fl')
      as (sched & s' & fs & p' & R2 & Sn & W & C & K' & F').
    cbn [sh_counter sh_wire] in *. rewrite <- S1 in Sn.
    exists (repeat i n ++ sched), s', (f :: fs), p'. rewrite run_app, R1. split; [exact R2|]. cbn [map concat].
    split; [econstructor; [exact Bs | exact Sn]|]. rewrite W, app_assoc. auto.
Qed.
Lemma turns_start c programs order l : is_byte c -> in_turn programs order = Some (map Ok l) -> Forall is_payload l ->
  exists sched s fs p', threads_run (threads_start c programs) sched = Some s
    /\ sends (mkSP [] true c 0 0) (map Ok l) fs p' /\ sh_wire s = concat fs /\ sh_counter s = sp_up p'.
Proof.
  intros B T F. destruct (in_turns order (threads_start c programs) l programs) as (sched & s & fs & p' & R & S1 & W & C & _); try assumption; try reflexivity.
  - unfold threads_start. cbn [sh_threads]. rewrite map_map. cbn [t_todo]. apply map_id.
  - unfold threads_start. cbn [sh_threads]. apply Forall_map. apply Forall_forall. reflexivity.
  - exists sched, s, fs, p'. auto.
Qed.
Lemma turns_received lib c programs order l q chunks : is_byte c -> in_turn programs order = Some (map Ok l) -> Forall is_payload l ->
  sp_skip q = true -> sp_buf q = [] -> is_byte (sp_down q) -> counter_after (sp_down q) = c ->
  exists sched s, threads_run (threads_start c programs) sched = Some s
    /\ (concat chunks = sh_wire s -> chunks <> [] ->
        exists q', feeds lib q chunks q' (map (fun a => (1, MRaw a)) l) [] /\ sp_buf q' = [] /\ sp_errs q' = sp_errs q).
Proof.
  intros B T F Sq Bq Dq Cq. destruct (turns_start c programs order l B T F) as (sched & s & fs & p' & R & Sn & W & _).
  exists sched, s. split; [exact R|]. intros E N.
  assert (Tm : Forall2 (transmits true) (map Ok l) (map MRaw l)).
  { clear -F. induction F as [|a l P F IH]; constructor; [apply transmits_raw; exact P | exact IH]. }
  destruct (link_in_step lib true _ _ _ _ q _ chunks Sn Tm B Sq Bq) as (q' & Fd & Bu & Er & _); try assumption.
  - rewrite E. exact W.
  - rewrite map_map in Fd. eauto.
Qed.

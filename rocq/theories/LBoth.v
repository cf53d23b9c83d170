(** Proofs about several callers of one modem object: the kinds of steps. *)
From Verif Require Import SBoth LReenter LConverse LSerial.

Lemma brun_app lib h a b : forall w, brun lib h w (a ++ b) =
  match brun lib h w a with
  | Some (w1, es1) => match brun lib h w1 b with Some (w2, es2) => Some (w2, es1 ++ es2) | None => None end
  | None => None
  end.
Proof.
  induction a as [|l a IH]; intro w; cbn [brun app].
  - destruct (brun lib h w b) as [[w2 e2]|]; reflexivity.
  - destruct (bstep lib h w l) as [[w1 e1]|]; [|reflexivity]. rewrite IH. destruct (brun lib h w1 a) as [[w2 e2]|]; [|reflexivity].
    destruct (brun lib h w2 b) as [[w3 e3]|]; [|reflexivity]. rewrite app_assoc. reflexivity.
Qed.
Lemma brun_snoc lib h ls l w w' es : brun lib h w (ls ++ [l]) = Some (w', es) ->
  exists v e1 e2, brun lib h w ls = Some (v, e1) /\ bstep lib h v l = Some (w', e2) /\ es = e1 ++ e2.
Proof.
  rewrite brun_app. destruct (brun lib h w ls) as [[v e1]|]; [|discriminate]. cbn [brun].
  destruct (bstep lib h v l) as [[u e2]|] eqn:E; [|discriminate]. rewrite app_nil_r. intro H. injection H as <- <-.
  exists v, e1, e2. auto.
Qed.

(** ** Callers in the waiting loop *)
Definition waiting (w : BWorld) (a : Who) : option (Command * Z) :=
  match a with
  | TheCallback => match rw_at (bw_reader w) with InWait c t _ _ => Some (c, t) | _ => None end
  | TheThread i => match nth_error (bw_threads w) i with Some (AWait c t _) => Some (c, t) | _ => None end
  end.
Lemma set_thread_same l i x y : nth_error l i = Some y -> nth_error (set_thread l i x) i = Some x.
Proof. revert i. induction l as [|a l IH]; intros [|i] E; cbn in *; try discriminate; [reflexivity | apply IH; exact E]. Qed.
Lemma set_thread_other l i j x : i <> j -> nth_error (set_thread l i x) j = nth_error l j.
Proof. revert i j. induction l as [|a l IH]; intros [|i] [|j] N; cbn; try reflexivity; [congruence | apply IH; congruence]. Qed.
Lemma waiting_set w i x (b : Who) : b <> TheThread i -> forall r,
  waiting (mkBWorld r (set_thread (bw_threads w) i x)) b = waiting (mkBWorld r (bw_threads w)) b.
Proof.
  intros N r. destruct b as [|j]; [reflexivity|]. cbn [waiting bw_threads]. rewrite set_thread_other; [reflexivity | congruence].
Qed.
Lemma same_caller_eq a b : same_caller a b = true <-> a = b.
Proof.
  destruct a as [|i], b as [|j]; cbn; split; intro H; try discriminate; try reflexivity.
  - apply PeanoNat.Nat.eqb_eq in H. subst. reflexivity.
  - injection H as <-. apply PeanoNat.Nat.eqb_refl.
Qed.

(** ** The four kinds of steps *)
Definition quiet (s s' : Session) : Prop :=
  sp_up (parser_of s') = sp_up (parser_of s) /\ se_sent s' = se_sent s.
Inductive kind (w w' : BWorld) : list Event -> Prop :=
| k_none : modem_of (the_session w') = modem_of (the_session w) -> quiet (the_session w) (the_session w') ->
    (forall a, waiting w' a = waiting w a) -> kind w w' []
| k_msg tx : modem_of (the_session w') = dispatch (modem_of (the_session w)) tx -> quiet (the_session w) (the_session w') ->
    (forall a, waiting w' a = waiting w a) -> waiting w TheCallback = None -> kind w w' [EvMessage tx]
| k_call a c t s' r : execute (the_session w) c t = (s', r) -> the_session w' = s' -> waiting w a = None ->
    waiting w' a = (match r with Ok _ => if waits_not (the_session w) t then None else Some (c, t) | Err _ => None end) ->
    (forall b, b <> a -> waiting w' b = waiting w b) -> kind w w' (call_events (the_session w) a c t)
| k_ret a c t : the_session w' = the_session w -> waiting w a = Some (c, t) -> waiting w' a = None ->
    (forall b, b <> a -> waiting w' b = waiting w b) ->
    kind w w' [EvReturn a c t (Ok (execute_result (the_session w)))].

Lemma reader_kind lib h r th l r' : rstep lib h r l = Some r' -> kind (mkBWorld r th) (mkBWorld r' th) (reader_events r l).
Proof.
  destruct r as [s a inp at_ log]. intro St.
  assert (Q : forall x, quiet x x) by (intro; split; reflexivity).
  destruct l as [b| |]; cbn [rstep] in St; cbn [reader_events rw_session rw_at].
  - injection St as <-. apply k_none; [reflexivity | apply Q | intros [|i]; reflexivity].
  - destruct at_ as [|[|tx m]|p m|c t k m|].
    + destruct inp as [|b inp]; [discriminate|]. pose proof (sparse_keeps_up lib (r_parser (se_reader s)) [b]) as U.
      destruct (sparse lib _ [b]) as [p [res|e]]; injection St as <-; cbn [fst] in U; apply k_none;
        try reflexivity; try (split; [exact U | reflexivity]); intros [|i]; reflexivity.
    + injection St as <-. apply k_none; [reflexivity | apply Q | intros [|i]; [destruct a|]; reflexivity].
    + injection St as <-. apply k_msg; [reflexivity | split; reflexivity | | reflexivity].
      intros [|i]; cbn [waiting bw_reader rw_at]; [destruct (callback_for h s tx)|]; reflexivity.
    + destruct p as [| |c t k|k]; try (injection St as <-; apply k_none; [reflexivity | split; reflexivity | intros [|i]; reflexivity]).
      destruct (execute s c t) as [s2 r2] eqn:X.
      change (call_events s TheCallback c t) with (call_events (the_session (mkBWorld (mkRWorld s a inp (InCallback (Exec c t k) m) log) th)) TheCallback c t).
      eapply (k_call _ _ TheCallback c t s2 r2); [exact X | | reflexivity | |].
      * destruct r2 as [[]|e]; [destruct (waits_not s t)|]; injection St as <-; reflexivity.
      * cbn [the_session bw_reader rw_session].
        destruct r2 as [[]|e]; [destruct (waits_not s t)|]; injection St as <-; reflexivity.
      * intros [|i] N; [congruence|]. reflexivity.
    + destruct (m_completed _); [|discriminate]. injection St as <-.
      refine (k_ret (mkBWorld (mkRWorld s a inp (InWait c t k m) log) th) _ TheCallback c t _ _ _ _); try reflexivity.
      intros [|i] N; [congruence | reflexivity].
    + discriminate.
  - destruct at_ as [|ms|p m|c t k m|]; try discriminate. injection St as <-.
    refine (k_ret (mkBWorld (mkRWorld s a inp (InWait c t k m) log) th) _ TheCallback c t _ _ _ _); try reflexivity.
    intros [|i] N; [congruence | reflexivity].
Qed.
Lemma bstep_kind lib h w l w' es : bstep lib h w l = Some (w', es) -> kind w w' es.
Proof.
  destruct w as [r th]. destruct l as [l|i|i]; cbn [bstep bw_reader bw_threads].
  - destruct (rstep lib h r l) as [r'|] eqn:St; [|discriminate]. intro H. injection H as <- <-. apply (reader_kind lib h). exact St.
  - destruct (nth_error th i) as [[[|c t k]|c t k]|] eqn:N; try discriminate.
    + destruct (execute _ c t) as [s' v] eqn:X. intro H. injection H as <- <-.
      eapply (k_call (mkBWorld r th) _ (TheThread i) c t s' v X); [reflexivity | | |].
      * cbn [waiting bw_threads]. rewrite N. reflexivity.
      * cbn [waiting bw_threads]. rewrite (set_thread_same _ _ _ _ N). destruct v as [u|e]; [|reflexivity].
        destruct (waits_not (the_session (mkBWorld r th)) t); reflexivity.
      * intros [|j] E; [reflexivity|]. cbn [waiting bw_threads]. rewrite set_thread_other; [reflexivity | congruence].
    + destruct (m_completed _); [|discriminate]. intro H. injection H as <- <-.
      eapply (k_ret (mkBWorld r th) _ (TheThread i) c t); [reflexivity | | |].
      * cbn [waiting bw_threads]. rewrite N. reflexivity.
      * cbn [waiting bw_threads]. rewrite (set_thread_same _ _ _ _ N). reflexivity.
      * intros [|j] E; [reflexivity|]. cbn [waiting bw_threads]. rewrite set_thread_other; [reflexivity | congruence].
  - destruct (nth_error th i) as [[p|c t k]|] eqn:N; try discriminate. intro H. injection H as <- <-.
    eapply (k_ret (mkBWorld r th) _ (TheThread i) c t); [reflexivity | | |].
    + cbn [waiting bw_threads]. rewrite N. reflexivity.
    + cbn [waiting bw_threads]. rewrite (set_thread_same _ _ _ _ N). reflexivity.
    + intros [|j] E; [reflexivity|]. cbn [waiting bw_threads]. rewrite set_thread_other; [reflexivity | congruence].
Qed.

(** ** What the object remembers is what the events say *)
Definition follows (s : Session) (evs : list Event) : Prop :=
  forall p a c t q, evs = p ++ EvStart a c t :: q -> no_start q ->
    m_tag (modem_of s) = (if m_skip (modem_of s) then None else wanted_tag c t)
    /\ nth (m_resp (modem_of s)) (m_heap (modem_of s)) [] = responses (m_skip (modem_of s)) c t q
    /\ m_completed (modem_of s) = existsb final (responses (m_skip (modem_of s)) c t q)
    /\ (m_resp (modem_of s) < length (m_heap (modem_of s)))%nat.

Lemma snoc_split {A} (l : list A) (x : A) p y q : l ++ [x] = p ++ y :: q ->
  (q = [] /\ x = y /\ l = p) \/ exists q', q = q' ++ [x] /\ l = p ++ y :: q'.
Proof.
  induction q as [|z q' _] using rev_ind; intro E.
  - apply app_inj_tail in E. destruct E as [-> ->]. left. auto.
  - right. exists q'. change (p ++ y :: q' ++ [z]) with (p ++ (y :: q') ++ [z]) in E. rewrite app_assoc in E.
    apply app_inj_tail in E. destruct E as [-> ->]. auto.
Qed.

Lemma snoc_no_start (l : list Event) x : no_start (l ++ [x]) -> no_start l /\ starts_call x = false.
Proof. intro H. apply Forall_app in H. destruct H as [A B]. split; [exact A|]. inversion B. assumption. Qed.
Lemma responses_app k c t a b : responses k c t (a ++ b) = responses k c t a ++ responses k c t b.
Proof.
  induction a as [|[a' c' t'|tx|a' c' t' r] a IH]; cbn [responses app]; try exact IH; [reflexivity|].
  destruct (answers_call k c t tx); [cbn [app]; rewrite IH; reflexivity | exact IH].
Qed.
Lemma is_response_answers m c t ty x : m_tag m = (if m_skip m then None else wanted_tag c t) ->
  is_response m ty x = answers_call (m_skip m) c t (ty, x).
Proof.
  intro T. unfold is_response, answers_call. cbn [fst snd]. destruct x; try reflexivity.
  rewrite T. destruct (m_skip m); [reflexivity|]. unfold tag_eqb.
  destruct (wanted_tag c t), (c_tag _); cbn; try (rewrite andb_comm; reflexivity); rewrite ?andb_false_r, ?andb_true_r; reflexivity.
Qed.
Lemma heap_append_nth h r x : (r < length h)%nat -> nth r (heap_append h r x) [] = nth r h [] ++ [x].
Proof. revert r. induction h as [|l h IH]; intros [|r] L; cbn in *; try lia; [reflexivity | apply IH; lia]. Qed.
Lemma heap_append_len h r x : length (heap_append h r x) = length h.
Proof. revert r. induction h as [|l h IH]; intros [|r]; cbn; try reflexivity. rewrite IH. reflexivity. Qed.
Lemma other_sync m t x : m_skip (dispatch_other m t x) = m_skip m /\ m_tag (dispatch_other m t x) = m_tag m
  /\ m_heap (dispatch_other m t x) = m_heap m /\ m_resp (dispatch_other m t x) = m_resp m
  /\ m_completed (dispatch_other m t x) = m_completed m.
Proof.
  unfold dispatch_other. repeat match goal with |- context [if ?b then _ else _] => destruct b end; repeat split.
Qed.
Lemma follows_modem s s' evs : modem_of s' = modem_of s -> follows s evs -> follows s' evs.
Proof. unfold follows. intros -> F. exact F. Qed.
Lemma follows_return s evs a c t v : follows s evs -> follows s (evs ++ [EvReturn a c t v]).
Proof.
  intros F p b d u q E N. apply snoc_split in E. destruct E as [(_ & E & _)|(q' & -> & ->)]; [discriminate|].
  apply snoc_no_start in N. destruct N as [N _]. destruct (F p b d u q' eq_refl N) as (A & B & C & D).
  rewrite responses_app. cbn [responses]. rewrite app_nil_r. auto.
Qed.
Lemma follows_message s s' evs tx : modem_of s' = dispatch (modem_of s) tx -> follows s evs -> follows s' (evs ++ [EvMessage tx]).
Proof.
  intros M F p b d u q E N. apply snoc_split in E. destruct E as [(_ & E & _)|(q' & -> & ->)]; [discriminate|].
  apply snoc_no_start in N. destruct N as [N _]. destruct (F p b d u q' eq_refl N) as (A & B & C & D). clear F.
  rewrite M, responses_app. destruct tx as [ty x]. unfold dispatch. pose proof (is_response_answers (modem_of s) d u ty x A) as R.
  destruct (is_response (modem_of s) ty x) eqn:V.
  - cbn [set_sync m_skip m_tag m_heap m_resp m_completed responses]. rewrite <- R. cbn [fst snd].
    rewrite heap_append_nth, heap_append_len, B, existsb_app by exact D. cbn [existsb]. rewrite orb_false_r, <- C.
    refine (conj A (conj eq_refl (conj _ D))). change (msg_completed x) with (final x).
    destruct (final x), (m_completed (modem_of s)); reflexivity.
  - destruct (other_sync (modem_of s) ty x) as (-> & -> & -> & -> & ->). cbn [responses]. rewrite <- R, app_nil_r. auto.
Qed.
Lemma execute_modem s c t s' u : execute s c t = (s', Ok u) -> modem_of s' = exec_start (modem_of s) (c_tag c) t.
Proof. unfold execute, modem_of. destruct (build_serial_frame _ _) as [p [b|e]]; intro E; [|discriminate]. injection E as <- _. reflexivity. Qed.
Lemma execute_refused s c t s' e : execute s c t = (s', Err e) -> s' = s.
Proof. unfold execute. destruct (build_serial_frame _ _) as [p [b|e']]; intro E; [discriminate|]. injection E as <- _. reflexivity. Qed.
Lemma follows_start s s' evs a c t u : execute s c t = (s', Ok u) -> follows s' (evs ++ [EvStart a c t]).
Proof.
  intros X p b d v q E N. rewrite (execute_modem _ _ _ _ _ X). unfold exec_start.
  cbn [set_sync m_skip m_tag m_heap m_resp m_completed].
  apply snoc_split in E. destruct E as [(-> & E & _)|(q' & -> & ->)].
  - injection E as <- <- <-. cbn [responses existsb]. rewrite app_length, app_nth2, PeanoNat.Nat.sub_diag by lia. cbn [nth length].
    refine (conj _ (conj eq_refl (conj eq_refl _))); [|lia]. unfold wanted_tag. destruct (m_skip (modem_of s)); reflexivity.
  - apply snoc_no_start in N. destruct N as [_ N]. discriminate.
Qed.
Lemma dispatch_skip m tx : m_skip (dispatch m tx) = m_skip m.
Proof. destruct tx as [t x]. unfold dispatch. destruct (is_response m t x); [reflexivity | apply other_sync]. Qed.
Lemma execute_result_follows s p a c t q : follows s (p ++ EvStart a c t :: q) -> no_start q ->
  execute_result s = collected (m_skip (modem_of s)) c t q.
Proof.
  intros F N. destruct (F p a c t q eq_refl N) as (_ & B & C & _). unfold execute_result, exec_result, collected.
  fold (modem_of s). rewrite C, B. reflexivity.
Qed.

(** Interleavings of the reader and execute_command. *)
From Verif Require Import Bits SModem LModem.

Lemma arrivals_app a b : arrivals (a ++ b) = arrivals a ++ arrivals b.
Proof. induction a as [|[t x| |tag sync| |] a IH]; cbn; rewrite ?IH; reflexivity. Qed.
Lemma answers_snoc tag t x : forall ms sel, answers_in tag ms sel ->
  answers_in tag (ms ++ [(t, x)]) (sel ++ if match_tag tag t x then [x] else []).
Proof.
  induction 1 as [|t' y ms sel L A H IH|t' y ms sel N H IH]; cbn [app].
  - destruct (match_tag tag t x) eqn:E.
    + apply match_tag_true in E. apply answers_take; [tauto | tauto | constructor].
    + apply match_tag_false in E. apply answers_skip; [tauto | constructor].
  - apply answers_take; assumption.
  - apply answers_skip; assumption.
Qed.
Lemma no_exec_snoc b l : no_exec b -> (forall tag sync, l <> LExec tag sync) -> no_exec (b ++ [l]).
Proof.
  intros H N tag sync I. apply in_app_or in I. destruct I as [I|[I|[]]]; [exact (H _ _ I) | exact (N _ _ I)].
Qed.

(** what the reader still has to append for the running command *)
Definition pending (w : World) (tag : option Z) : list Msg :=
  match w_r w with
  | RTest t x => if match_tag tag t x then [x] else []
  | RLoad x | RAppend _ x => [x]
  | _ => []
  end.
Definition current (w : World) : list Msg := nth (m_resp (w_m w)) (m_heap (w_m w)) [].

(** the call in progress began after [before], and nothing was called since *)
Definition called (pre : list Label) (tag : option Z) (sync : bool) (during : list Label) : Prop :=
  exists before, pre = before ++ LExec tag sync :: during /\ no_exec during.

Definition running (pre : list Label) (w : World) (tag : option Z) : Prop :=
  exists during, called pre tag true during
  /\ m_tag (w_m w) = tag
  /\ answers_in tag (arrivals during) (current w ++ pending w tag)
  /\ (m_completed (w_m w) = true -> some_completed (current w))
  /\ match w_r w with RAppend r _ => r = m_resp (w_m w) | RDone x => In x (current w) | _ => True end.
Definition setting (pre : list Label) (tag : option Z) (sync : bool) : Prop :=
  exists during, called pre tag sync during /\ arrivals during = [].

Definition phase (pre : list Label) (w : World) : Prop :=
  match w_a w with
  | AIdle => True
  | AResetList tag sync => w_r w = RIdle /\ setting pre tag sync
  | AResetTag tag sync => w_r w = RIdle /\ setting pre tag sync /\ current w = []
  | AResetCompleted tag sync => w_r w = RIdle /\ setting pre tag sync /\ current w = []
  | ASetTag tag => w_r w = RIdle /\ setting pre tag true /\ current w = [] /\ m_completed (w_m w) = false
  | AWrite tag false => exists sync during, called pre tag sync during
  | AWrite tag true | AWait tag | ATest tag | AReturn tag =>
      running pre w tag /\ (forall t, w_a w = AReturn t -> m_completed (w_m w) = true)
  end.
Definition Inv (pre : list Label) (w : World) : Prop :=
  m_skip (w_m w) = false /\ (m_resp (w_m w) < length (m_heap (w_m w)))%nat
  /\ phase pre w /\ Forall (returned pre) (w_rets w).

Lemma returned_more pre l r : returned pre r -> returned (pre ++ [l]) r.
Proof.
  destruct r as [[tag obj] value]. intros [(A & B & sync & I)|(bf & du & la & sel & E & R)].
  - left. split; [exact A|]. split; [exact B|]. exists sync. apply in_or_app. auto.
  - right. exists bf, du, (la ++ [l]), sel. split; [|exact R]. rewrite E, <- !app_assoc. cbn. rewrite <- app_assoc. reflexivity.
Qed.
Lemma returned_more_all pre l rs : Forall (returned pre) rs -> Forall (returned (pre ++ [l])) rs.
Proof. intro F. eapply Forall_impl; [|exact F]. intros r. apply returned_more. Qed.
Lemma called_more pre tag sync during l : (forall t s, l <> LExec t s) -> called pre tag sync during ->
  called (pre ++ [l]) tag sync (during ++ [l]).
Proof.
  intros N (bf & E & NE). exists bf. split; [rewrite E, <- app_assoc; reflexivity | apply no_exec_snoc; assumption].
Qed.
Lemma setting_more pre tag sync l : (forall t s, l <> LExec t s) -> (forall t x, l <> LMsg t x) ->
  setting pre tag sync -> setting (pre ++ [l]) tag sync.
Proof.
  intros N1 N2 (du & C & A). exists (du ++ [l]). split; [apply called_more; assumption|].
  rewrite arrivals_app, A. destruct l; try reflexivity. exfalso. eapply N2. reflexivity.
Qed.
Lemma called_in pre tag sync during : called pre tag sync during -> In (LExec tag sync) pre.
Proof. intros (bf & -> & _). apply in_or_app. right. left. reflexivity. Qed.

Lemma dispatch_other_sync m t x :
  m_skip (dispatch_other m t x) = m_skip m /\ m_heap (dispatch_other m t x) = m_heap m
  /\ m_resp (dispatch_other m t x) = m_resp m /\ m_tag (dispatch_other m t x) = m_tag m
  /\ m_completed (dispatch_other m t x) = m_completed m.
Proof.
  unfold dispatch_other. destruct (m_has_cb m && m_connected m && (t <=? 3)); [repeat split|].
  destruct (t =? 5); [destruct (m_has_rbcb m); repeat split|].
  destruct (t =? 4); [repeat split|]. destruct (t <=? 3); repeat split.
Qed.
Lemma is_response_match m t x : m_skip m = false -> is_response m t x = match_tag (m_tag m) t x.
Proof. intro S. destruct x; cbn; try reflexivity. rewrite S. reflexivity. Qed.

Lemma running_msg pre w tag t x : running pre w tag -> w_r w = RIdle ->
  running (pre ++ [LMsg t x]) (mkWorld (w_m w) (RTest t x) (w_a w) (w_rets w)) tag.
Proof.
  intros (du & C & T & A & K & _) R. exists (du ++ [LMsg t x]). split; [apply called_more; [discriminate | exact C]|].
  split; [exact T|]. split; [|split; [exact K | exact I]].
  rewrite arrivals_app. cbn [arrivals]. unfold pending in A. rewrite R, app_nil_r in A.
  unfold pending, current in *. cbn [w_r w_m]. apply answers_snoc. exact A.
Qed.
Lemma running_same pre w tag l w1 : running pre w tag -> (forall t s, l <> LExec t s) -> (forall t x, l <> LMsg t x) ->
  w_m w1 = w_m w -> w_r w1 = w_r w -> running (pre ++ [l]) w1 tag.
Proof.
  intros (du & C & T & A & K & M) N1 N2 EM ER. exists (du ++ [l]). split; [apply called_more; assumption|].
  unfold current, pending in *. rewrite EM, ER. split; [exact T|].
  split; [|split; assumption]. rewrite arrivals_app. destruct l; cbn [arrivals]; rewrite ?app_nil_r; try exact A.
  exfalso. eapply N2. reflexivity.
Qed.
Lemma running_reader pre w tag w1 : running pre w tag -> m_skip (w_m w) = false ->
  (m_resp (w_m w) < length (m_heap (w_m w)))%nat -> step w LReader = Some w1 ->
  running (pre ++ [LReader]) w1 tag /\ (m_completed (w_m w) = true -> m_completed (w_m w1) = true).
Proof.
  intros (du & C & T & A & K & M) S L E.
  assert (C' : called (pre ++ [LReader]) tag true (du ++ [LReader])) by (apply called_more; [discriminate | exact C]).
  assert (AR : arrivals (du ++ [LReader]) = arrivals du) by (rewrite arrivals_app; apply app_nil_r).
  destruct w as [m r a rets]. cbn [w_m w_r w_a w_rets] in *. unfold step in E. cbn [w_m w_r w_a w_rets] in E.
  unfold pending, current in *. cbn [w_m w_r] in *.
  destruct r as [|t x|x|r x|x]; [discriminate| | | |].
  - rewrite is_response_match in E by exact S. rewrite T in E. destruct (match_tag tag t x) eqn:MT.
    + injection E as <-. split; [|auto]. exists (du ++ [LReader]). rewrite AR. unfold pending, current. cbn. auto 10.
    + injection E as <-. destruct (dispatch_other_sync m t x) as (E1 & E2 & E3 & E4 & E5).
      split; [|cbn; rewrite E5; auto]. exists (du ++ [LReader]). rewrite AR. unfold pending, current. cbn [w_m w_r].
      rewrite E2, E3, E4, E5. auto 10.
  - injection E as <-. split; [|auto]. exists (du ++ [LReader]). rewrite AR. unfold pending, current. cbn. auto 10.
  - injection E as <-. split; [|auto]. subst r. exists (du ++ [LReader]). rewrite AR. unfold pending, current. cbn.
    rewrite heap_append_same by exact L. rewrite app_nil_r. split; [exact C'|]. split; [exact T|]. split; [exact A|].
    split.
    + intro H. destruct (K H) as (c & I & Hc). exists c. split; [apply in_or_app; auto | exact Hc].
    + apply in_or_app. right. left. reflexivity.
  - injection E as <-. split.
    2:{ cbn. destruct (msg_completed x); cbn; auto. }
    exists (du ++ [LReader]). rewrite AR. unfold pending, current. cbn [w_m w_r].
    destruct (msg_completed x) eqn:MC; cbn.
    + split; [exact C'|]. split; [exact T|]. split; [exact A|]. split; [|exact I]. intros _.
      destruct x as [z|l|c]; try discriminate. exists c. split; [exact M | exact MC].
    + auto 10.
Qed.

Lemma reader_static w w1 : step w LReader = Some w1 ->
  w_a w1 = w_a w /\ w_rets w1 = w_rets w /\ m_skip (w_m w1) = m_skip (w_m w) /\ m_resp (w_m w1) = m_resp (w_m w)
  /\ length (m_heap (w_m w1)) = length (m_heap (w_m w)) /\ m_tag (w_m w1) = m_tag (w_m w).
Proof.
  destruct w as [m r a rets]. unfold step. cbn [w_m w_r w_a w_rets].
  destruct r as [|t x|x|r x|x]; [discriminate| | | |].
  - destruct (is_response m t x); intro E; injection E as <-; [repeat split|]. cbn.
    destruct (dispatch_other_sync m t x) as (E1 & E2 & E3 & E4 & E5). rewrite E2. auto 10.
  - intro E; injection E as <-. repeat split.
  - intro E; injection E as <-. cbn. rewrite heap_append_length. repeat split.
  - intro E; injection E as <-. destruct (msg_completed x); repeat split.
Qed.

Lemma inv_step pre w l w1 : Inv pre w -> undisturbed_label w l -> step w l = Some w1 -> Inv (pre ++ [l]) w1.
Proof.
  intros (S & L & P & F) U E. pose proof (returned_more_all pre l _ F) as F'.
  destruct l as [t x| |tag sync| |].
  - (* a message arrives *)
    destruct w as [m r a rets]. cbn [w_m w_r w_a w_rets undisturbed_label] in *. unfold step in E. cbn [w_m w_r w_a w_rets] in E.
    destruct r; try discriminate. injection E as <-. split; [exact S|]. split; [exact L|]. split; [|exact F'].
    unfold phase in *. cbn [w_m w_r w_a w_rets] in *. destruct a as [|tag sync|tag sync|tag sync|tag|tag [|]|tag|tag|tag]; try discriminate.
    + exact I.
    + destruct P as [P Q]. split; [exact (running_msg _ _ _ t x P eq_refl) | exact Q].
    + destruct P as (sync & du & P). exists sync, (du ++ [LMsg t x]). apply called_more; [discriminate | exact P].
    + destruct P as [P Q]. split; [exact (running_msg _ _ _ t x P eq_refl) | exact Q].
    + destruct P as [P Q]. split; [exact (running_msg _ _ _ t x P eq_refl) | exact Q].
    + destruct P as [P Q]. split; [exact (running_msg _ _ _ t x P eq_refl) | exact Q].
  - (* the reader moves *)
    destruct (reader_static w w1 E) as (EA & ER & ES & ERe & EL & _).
    split; [congruence|]. split; [rewrite ERe, EL; exact L|]. split; [|rewrite ER; exact F'].
    unfold phase in *. rewrite EA.
    assert (RI : w_r w = RIdle -> False). { intro R. unfold step in E. rewrite R in E. discriminate. }
    destruct (w_a w) as [|tag sync|tag sync|tag sync|tag|tag [|]|tag|tag|tag]; try (exfalso; tauto); try exact I.
    + destruct P as [P Q]. destruct (running_reader _ _ _ _ P S L E) as [P' Q']. split; [exact P' | intros t H; discriminate].
    + destruct P as (sync & du & P). exists sync, (du ++ [LReader]). apply called_more; [discriminate | exact P].
    + destruct P as [P Q]. destruct (running_reader _ _ _ _ P S L E) as [P' Q']. split; [exact P' | intros t H; discriminate].
    + destruct P as [P Q]. destruct (running_reader _ _ _ _ P S L E) as [P' Q']. split; [exact P' | intros t H; discriminate].
    + destruct P as [P Q]. destruct (running_reader _ _ _ _ P S L E) as [P' Q']. split; [exact P' | intros t H]. apply Q'. eapply Q. exact H.
  - (* a call *)
    destruct w as [m r a rets]. cbn [w_m w_r w_a w_rets undisturbed_label] in *. subst r. unfold step in E. cbn [w_m w_r w_a w_rets] in E.
    destruct a; try discriminate. rewrite S, andb_true_r in E. injection E as <-.
    split; [exact S|]. split; [exact L|]. split; [|exact F']. cbn. split; [reflexivity|].
    exists []. split; [|reflexivity]. exists pre. split; [reflexivity | intros ? ? []].
  - (* the application moves *)
    assert (N1 : forall t s, LApp <> LExec t s) by discriminate. assert (N2 : forall t x, LApp <> LMsg t x) by discriminate.
    destruct w as [m r a rets]. cbn [w_m w_r w_a w_rets] in *. unfold phase in P. unfold step in E. cbn [w_m w_r w_a w_rets] in *.
    destruct a as [|tag sync|tag sync|tag sync|tag|tag [|]|tag|tag|tag]; try discriminate.
    + injection E as <-. destruct P as [R P]. split; [exact S|]. split; [cbn; rewrite app_length; cbn; lia|]. split; [|exact F'].
      cbn. split; [exact R|]. split; [apply setting_more; assumption|]. unfold current. cbn. apply nth_new.
    + injection E as <-. destruct P as (R & P & Q). split; [exact S|]. split; [exact L|]. split; [|exact F'].
      cbn. split; [exact R|]. split; [apply setting_more; assumption | exact Q].
    + injection E as <-. destruct P as (R & P & Q). split; [exact S|]. split; [exact L|]. split; [|exact F'].
      destruct sync; cbn.
      * split; [exact R|]. split; [apply setting_more; assumption|]. split; [exact Q | reflexivity].
      * destruct P as (du & P & _). exists false, (du ++ [LApp]). apply called_more; assumption.
    + injection E as <-. destruct P as (R & (du & P & PA) & Q & K). split; [exact S|]. split; [exact L|]. split; [|exact F'].
      cbn. split; [|intros t H; discriminate]. exists (du ++ [LApp]). split; [apply called_more; assumption|].
      split; [reflexivity|]. unfold current, pending in *. cbn in *. subst r. rewrite Q, arrivals_app, PA. cbn.
      split; [constructor|]. split; [congruence | exact I].
    + injection E as <-. destruct P as [P Q]. split; [exact S|]. split; [exact L|]. split; [|exact F'].
      cbn. split; [eapply running_same; [exact P | | | |]; auto | intros t H; discriminate].
    + injection E as <-. destruct P as (sync & du & P). split; [exact S|]. split; [exact L|]. split; [exact I|].
      cbn. apply Forall_app. split; [exact F'|]. constructor; [|constructor]. left. split; [reflexivity|]. split; [reflexivity|].
      exists sync. apply in_or_app. left. eapply called_in. exact P.
    + destruct P as [P Q]. split; [destruct (m_completed m); injection E as <-; exact S|].
      split; [destruct (m_completed m); injection E as <-; exact L|].
      split; [|destruct (m_completed m); injection E as <-; exact F'].
      destruct (m_completed m); injection E as <-; cbn; (split; [eapply running_same; [exact P | | | |]; auto | intros t H; discriminate]).
    + destruct P as [P Q]. destruct (m_completed m) eqn:MC; injection E as <-.
      * split; [exact S|]. split; [exact L|]. split; [|exact F'].
        cbn. split; [eapply running_same; [exact P | | | |]; auto | intros t H; exact MC].
      * split; [exact S|]. split; [exact L|]. split; [exact I|]. cbn. apply Forall_app. split; [exact F'|].
        constructor; [|constructor]. left. split; [reflexivity|]. split; [reflexivity|]. destruct P as (du & P & _).
        exists true. apply in_or_app. left. eapply called_in. exact P.
    + destruct P as [P Q]. injection E as <-. split; [exact S|]. split; [exact L|]. split; [exact I|]. cbn. apply Forall_app. split; [exact F'|].
      constructor; [|constructor]. right. destruct P as (du & (bf & EP & NE) & T & A & K & _).
      exists bf, du, [LApp], (current (mkWorld m r (AReturn tag) rets) ++ pending (mkWorld m r (AReturn tag) rets) tag).
      split; [rewrite EP, <- app_assoc; reflexivity|]. split; [exact NE|]. split; [exact A|]. split.
      * exists (pending (mkWorld m r (AReturn tag) rets) tag). reflexivity.
      * apply K. eapply Q. reflexivity.
  - (* time is up *)
    assert (N1 : forall t s, LGiveUp <> LExec t s) by discriminate. assert (N2 : forall t x, LGiveUp <> LMsg t x) by discriminate.
    destruct w as [m r a rets]. cbn [w_m w_r w_a w_rets] in *. unfold phase in P. unfold step in E. cbn [w_m w_r w_a w_rets] in *.
    destruct a; try discriminate. injection E as <-. destruct P as [P Q]. split; [exact S|]. split; [exact L|]. split; [|exact F'].
    cbn. split; [eapply running_same; [exact P | | | |]; auto | intros t H; discriminate].
Qed.
Lemma inv_run w ls w1 : undisturbed w ls w1 -> forall pre, Inv pre w -> Inv (pre ++ ls) w1.
Proof.
  induction 1 as [w|w l w1 ls w2 U E H IH]; intros pre I0; [rewrite app_nil_r; exact I0|].
  change (l :: ls) with ([l] ++ ls). rewrite app_assoc. apply IH. eapply inv_step; eauto.
Qed.
Lemma undisturbed_returns cb rbcb ls w : undisturbed (new_world cb rbcb) ls w -> Forall (returned ls) (w_rets w).
Proof.
  intro U. apply (inv_run _ _ _ U []). split; [reflexivity|]. split; [cbn; lia|]. split; [exact I | constructor].
Qed.

(** ** Any schedule: what returned messages can be *)
Lemma known_more ls l x : known ls x -> known (ls ++ [l]) x.
Proof.
  intros (c & -> & (t & I & L) & T). exists c. split; [reflexivity|]. split.
  - exists t. split; [apply in_or_app; auto | exact L].
  - destruct T as [T|T]; [auto | right; apply in_or_app; auto].
Qed.
Definition issued (ls : list Label) (tag : option Z) : Prop := tag = None \/ In (LExec tag true) ls.
Lemma issued_more ls l tag : issued ls tag -> issued (ls ++ [l]) tag.
Proof. intros [H|H]; [left; exact H | right; apply in_or_app; auto]. Qed.
Definition app_known (ls : list Label) (a : APC) : Prop :=
  match a with
  | AResetList tag true | AResetTag tag true | AResetCompleted tag true | ASetTag tag => issued ls tag
  | _ => True
  end.
Definition reader_known (ls : list Label) (r : RPC) : Prop :=
  match r with
  | RTest t x => In (LMsg t x) ls
  | RLoad x => known ls x
  | RAppend _ x => known ls x
  | _ => True
  end.
Definition AInv (ls : list Label) (w : World) : Prop :=
  issued ls (m_tag (w_m w)) /\ app_known ls (w_a w) /\ reader_known ls (w_r w)
  /\ Forall (Forall (known ls)) (m_heap (w_m w)) /\ Forall (fun r => Forall (known ls) (snd r)) (w_rets w).
Lemma app_known_more ls l a : app_known ls a -> app_known (ls ++ [l]) a.
Proof. destruct a as [|tag [|]|tag [|]|tag [|]|tag| | | |]; cbn; auto using issued_more. Qed.
Lemma reader_known_more ls l r : reader_known ls r -> reader_known (ls ++ [l]) r.
Proof. destruct r; cbn; auto using known_more. intro H. apply in_or_app. auto. Qed.
Lemma heap_append_forall (Q : Msg -> Prop) x : Q x -> forall h r, Forall (Forall Q) h -> Forall (Forall Q) (heap_append h r x).
Proof.
  intro HQ. induction h as [|l h IH]; intros r F; [destruct r; exact F|]. inversion F; subst. destruct r; cbn.
  - constructor; [|assumption]. apply Forall_app. split; [assumption | constructor; auto].
  - constructor; auto.
Qed.
Lemma nth_forall (Q : Msg -> Prop) h r : Forall (Forall Q) h -> Forall Q (nth r h []).
Proof.
  intro F. destruct (nth_in_or_default r h []) as [I|E]; [|rewrite E; constructor].
  rewrite Forall_forall in F. exact (F _ I).
Qed.
Lemma ainv_step ls w l w1 : AInv ls w -> step w l = Some w1 -> AInv (ls ++ [l]) w1.
Proof.
  intros (T & A & R & H & F) E.
  assert (H' : Forall (Forall (known (ls ++ [l]))) (m_heap (w_m w))).
  { eapply Forall_impl; [|exact H]. intros q Hq. eapply Forall_impl; [|exact Hq]. intros x. apply known_more. }
  assert (F' : Forall (fun r => Forall (known (ls ++ [l])) (snd r)) (w_rets w)).
  { eapply Forall_impl; [|exact F]. intros q Hq. eapply Forall_impl; [|exact Hq]. intros x. apply known_more. }
  pose proof (issued_more ls l _ T) as T'. pose proof (app_known_more ls l _ A) as A'. pose proof (reader_known_more ls l _ R) as R'.
  clear H F. destruct w as [m r a rets]. cbn [w_m w_r w_a w_rets] in *. unfold step in E. cbn [w_m w_r w_a w_rets] in E.
  unfold AInv. destruct l as [t x| |tag sync| |].
  - destruct r; try discriminate. injection E as <-. cbn. repeat (split; [assumption|]). split; [|auto].
    apply in_or_app. right. left. reflexivity.
  - destruct r as [|t x|x|r x|x]; [discriminate| | | |].
    + destruct (is_response m t x) eqn:IR; injection E as <-.
      * refine (conj T' (conj A' (conj _ (conj H' F')))). cbn in *. apply is_response_iff in IR. destruct IR as [L (_ & c & -> & Ec)].
        exists c. split; [reflexivity|]. split; [exists t; auto|]. rewrite Ec. exact T'.
      * destruct (dispatch_other_sync m t x) as (E1 & E2 & E3 & E4 & E5). cbn. rewrite E2, E4. auto 10.
    + injection E as <-. cbn in *. auto 10.
    + injection E as <-. cbn in *. refine (conj T' (conj A' (conj I (conj _ F')))). apply heap_append_forall; assumption.
    + injection E as <-. cbn in *. destruct (msg_completed x); cbn; auto 10.
  - destruct a; try discriminate. injection E as <-. refine (conj T' (conj _ (conj R' (conj H' F')))). cbn.
    destruct (sync && negb (m_skip m)) eqn:B; [|exact I]. apply andb_prop in B. destruct B as [B _]. subst sync.
    right. apply in_or_app. right. left. reflexivity.
  - destruct a as [|tag sync|tag sync|tag sync|tag|tag sync|tag|tag|tag]; try discriminate.
    + injection E as <-. cbn. refine (conj T' (conj _ (conj R' (conj _ F')))); [exact A'|]. apply Forall_app. split; [exact H'|]. constructor; constructor.
    + injection E as <-. cbn. refine (conj _ (conj A' (conj R' (conj H' F')))). left. reflexivity.
    + injection E as <-. cbn. refine (conj T' (conj _ (conj R' (conj H' F')))). destruct sync; [exact A' | exact I].
    + injection E as <-. cbn. refine (conj A' (conj I (conj R' (conj H' F')))).
    + destruct sync; injection E as <-; cbn; refine (conj T' (conj I (conj R' (conj H' _)))); [exact F'|].
      apply Forall_app. split; [exact F'|]. constructor; constructor.
    + destruct (m_completed m); injection E as <-; cbn; auto 10.
    + destruct (m_completed m); injection E as <-; cbn; [auto 10|]. refine (conj T' (conj I (conj R' (conj H' _)))).
      apply Forall_app. split; [exact F'|]. constructor; constructor.
    + injection E as <-; cbn. refine (conj T' (conj I (conj R' (conj H' _)))).
      apply Forall_app. split; [exact F'|]. constructor; [|constructor]. cbn. apply nth_forall. exact H'.
  - destruct a; try discriminate. injection E as <-. cbn. auto 10.
Qed.
Lemma ainv_run ls : forall pre w w1, AInv pre w -> run w ls = Some w1 -> AInv (pre ++ ls) w1.
Proof.
  induction ls as [|l ls IH]; intros pre w w1 A E; [injection E as <-; rewrite app_nil_r; exact A|].
  cbn [run] in E. destruct (step w l) as [w2|] eqn:S; [|discriminate].
  change (l :: ls) with ([l] ++ ls). rewrite app_assoc. eapply IH; [|exact E]. eapply ainv_step; eauto.
Qed.
Lemma any_schedule_returns cb rbcb ls w tag obj value x : run (new_world cb rbcb) ls = Some w ->
  In (tag, obj, value) (w_rets w) -> In x value -> known ls x.
Proof.
  intros E I1 I2. assert (A : AInv ([] ++ ls) w).
  { apply (ainv_run ls [] (new_world cb rbcb)); [|exact E]. repeat split; cbn; auto; repeat constructor. }
  destruct A as (_ & _ & _ & _ & F). rewrite Forall_forall in F. specialize (F _ I1). cbn in F.
  rewrite Forall_forall in F. exact (F _ I2).
Qed.

(** ** The race *)
Lemma run_cons w l w1 ls w2 : step w l = Some w1 -> run w1 ls = Some w2 -> run w (l :: ls) = Some w2.
Proof. intros E R. cbn [run]. rewrite E. exact R. Qed.
Ltac go_run := repeat (eapply run_cons; [cbv -[Z.eqb]; rewrite ?Z.eqb_refl; reflexivity|]); reflexivity.
Definition apps (n : nat) : list Label := repeat LApp n.
(** command 1 times out; its answer passes the tag test; command 2 sets up and
    sends; the answer is appended to its list and ends it *)
Definition late_schedule (t1 t2 : option Z) (x : Msg) : list Label :=
  LExec t1 true :: apps 5 ++ [LGiveUp; LApp; LMsg 1 x; LReader; LExec t2 true] ++ apps 5 ++ [LReader; LReader; LReader] ++ apps 3.
Lemma late_race cb rbcb t1 t2 c : c_tag c = Some t1 -> c_completed c = true ->
  exists w, run (new_world cb rbcb) (late_schedule (Some t1) t2 (MCmd c)) = Some w
  /\ w_rets w = [(Some t1, None, []); (t2, Some 2%nat, [MCmd c])].
Proof.
  intros T K. destruct c as [ac st ge tag re co er]. cbn in T, K. subst.
  unfold late_schedule, apps, new_world, new_modem. cbn [repeat app]. eexists. split; [go_run | reflexivity].
Qed.
(** the whole message is handled between the first two assignments of the
    set-up: it precedes the genuine answer in the result *)
Definition early_schedule (t1 t2 : option Z) (x y : Msg) : list Label :=
  LExec t1 true :: apps 5 ++ [LGiveUp; LApp; LExec t2 true; LApp; LMsg 1 x; LReader; LReader; LReader; LReader]
  ++ apps 4 ++ [LMsg 1 y; LReader; LReader; LReader; LReader] ++ apps 3.
Lemma early_race cb rbcb t1 t2 c1 c2 : c_tag c1 = Some t1 -> c_tag c2 = Some t2 -> c_completed c2 = true ->
  exists w, run (new_world cb rbcb) (early_schedule (Some t1) (Some t2) (MCmd c1) (MCmd c2)) = Some w
  /\ w_rets w = [(Some t1, None, []); (Some t2, Some 2%nat, [MCmd c1; MCmd c2])].
Proof.
  intros T1 T2 K. destruct c1 as [a1 s1 g1 tag1 r1 k1 e1], c2 as [a2 s2 g2 tag2 r2 k2 e2]. cbn in T1, T2, K. subst.
  unfold early_schedule, apps, new_world, new_modem. cbn [repeat app]. destruct k1; eexists; (split; [go_run | reflexivity]).
Qed.

(** Lemmas for any number of reader threads. *)
From Coq Require Import Lia Arith.
From Verif Require Import SReaders.
Set Implicit Arguments.

Lemma port_run_app a b : forall w, port_run w (a ++ b) =
  match port_run w a with Some v => port_run v b | None => None end.
Proof. induction a as [|l a IH]; intro w; cbn; [reflexivity|]. destruct (port_step w l); [apply IH | reflexivity]. Qed.
Lemma port_run_snoc ls l w w' : port_run w (ls ++ [l]) = Some w' ->
  exists v, port_run w ls = Some v /\ port_step v l = Some w'.
Proof.
  rewrite port_run_app. destruct (port_run w ls) as [v|]; [|discriminate]. cbn.
  destruct (port_step v l) eqn:E; [|discriminate]. intro H. injection H as <-. exists v. auto.
Qed.
Lemma handed_app a b : forall w v, port_run w a = Some v -> handed w (a ++ b) = handed w a ++ handed v b.
Proof.
  induction a as [|l a IH]; intros w v H; cbn in *; [injection H as <-; reflexivity|].
  destruct (port_step w l); [|discriminate]. rewrite <- app_assoc. f_equal. apply IH, H.
Qed.
Lemma came_app a b : came (a ++ b) = came a ++ came b.
Proof. apply flat_map_app. Qed.
Lemma starts_app a b : starts (a ++ b) = (starts a + starts b)%nat.
Proof. unfold starts. rewrite filter_app, app_length. reflexivity. Qed.

Lemma nth_cut A (l : list A) : forall i x, nth_error l i = Some x ->
  exists a b, l = a ++ x :: b /\ length a = i /\ forall y, set_nth i y l = a ++ y :: b.
Proof.
  induction l as [|z l IH]; intros [|i] x H; try discriminate; cbn in H.
  - injection H as ->. exists [], l. auto.
  - destruct (IH _ _ H) as (a & b & -> & La & S). exists (z :: a), b. split; [reflexivity|]. split; [cbn; lia|].
    intro y. cbn. rewrite S. reflexivity.
Qed.
Lemma set_length A (l : list A) : forall i y, length (set_nth i y l) = length l.
Proof. induction l as [|z l IH]; intros [|i] y; cbn; auto. Qed.

(** * Each byte is handed over once *)
Definition hand (t : KThread) : list Z := match t with KGot b => [b] | _ => [] end.
Lemma held_eq w : held w = flat_map hand (k_threads w).
Proof. reflexivity. Qed.
Lemma hand_cut a (x : KThread) b : flat_map hand (a ++ x :: b) = flat_map hand a ++ hand x ++ flat_map hand b.
Proof. rewrite flat_map_app. reflexivity. Qed.

(** a step without a byte changing hands *)
Lemma call_shape w x c : the_call w x = Some c -> forall d v, set_call x d w = v ->
  k_active v = k_active w /\ k_input v = k_input w /\ k_cancelled v = k_cancelled w /\ k_open v = k_open w
  /\ k_last v = k_last w /\ length (k_threads v) = length (k_threads w) /\ held v = held w.
Proof.
  destruct w as [a inp cn o ts l aps]. destruct x as [i|i]; cbn; intros H d v <-; cbn; repeat split; try reflexivity.
  - apply set_length.
  - unfold held. cbn. destruct (nth_error ts i) as [t|] eqn:E; [|discriminate].
    destruct (nth_cut _ _ E) as (p & q & -> & _ & S). rewrite S.
    destruct t; try discriminate. fold hand. rewrite !flat_map_app. reflexivity.
Qed.

(** what a step does to the bytes: from held, waiting to held, waiting, with the
    bytes that came and were handed over *)
Inductive moves : list Z -> list Z -> list Z -> list Z -> list Z -> list Z -> Prop :=
| mv_quiet h i : moves h i h i [] []
| mv_came h i b : moves h i h (i ++ [b]) [b] []
| mv_take p q i b : moves (p ++ q) (b :: i) (p ++ b :: q) i [] []
| mv_hand p q i b : moves (p ++ b :: q) i (p ++ q) i [] [b].

Lemma set_reader_held i x y w : nth_error (k_threads w) i = Some x ->
  exists p q, held w = p ++ hand x ++ q /\ held (set_reader i y w) = p ++ hand y ++ q.
Proof.
  destruct w as [a inp cn o ts l aps]. cbn. intro E. destruct (nth_cut _ _ E) as (p & q & -> & _ & S).
  exists (flat_map hand p), (flat_map hand q). unfold held. cbn. rewrite S. fold hand. rewrite !hand_cut. auto.
Qed.
Lemma set_reader_input i y w : k_input (set_reader i y w) = k_input w.
Proof. destruct w; reflexivity. Qed.
Lemma set_reader_quiet i x y w : nth_error (k_threads w) i = Some x -> hand x = [] -> hand y = [] ->
  held (set_reader i y w) = held w.
Proof. intros E Hx Hy. destruct (set_reader_held i y w E) as (p & q & -> & ->). rewrite Hx, Hy. reflexivity. Qed.
Lemma call_quiet w v x c d : the_call v x = Some c -> held v = held w -> k_input v = k_input w ->
  moves (held w) (k_input w) (held (set_call x d v)) (k_input (set_call x d v)) [] [].
Proof.
  intros E H I. destruct (call_shape _ _ E d eq_refl) as (_ & I' & _ & _ & _ & _ & H').
  rewrite I', H', H, I. constructor.
Qed.
Lemma the_call_active b w x : the_call (set_active b w) x = the_call w x.
Proof. destruct w, x; reflexivity. Qed.
Lemma the_call_cancelled b w x : the_call (set_cancelled b w) x = the_call w x.
Proof. destruct w, x; reflexivity. Qed.
Lemma the_call_create w x c : the_call w x = Some c -> the_call (create w) x = Some c.
Proof.
  destruct w as [a inp cn o ts l aps], x as [i|i]; cbn; [auto|]. intro H.
  destruct (nth_error ts i) eqn:E; [|discriminate]. rewrite nth_error_app1, E; [exact H|]. apply nth_error_Some. congruence.
Qed.
Lemma the_call_start w x c i : the_call w x = Some c -> nth_error (k_threads w) i = Some KNew ->
  the_call (set_reader i KTop w) x = Some c.
Proof.
  destruct w as [a inp cn o ts l aps], x as [k|k]; cbn; [auto|]. intros H E.
  destruct (nth_cut _ _ E) as (p & q & -> & Lp & S). rewrite S.
  destruct (Nat.lt_ge_cases k (length p)) as [L|L]; [rewrite nth_error_app1 in * by lia; exact H|].
  rewrite nth_error_app2 in * by lia. destruct (k - length p)%nat; cbn in *; [discriminate | exact H].
Qed.
Lemma step_moves w l v : port_step w l = Some v ->
  moves (held w) (k_input w) (held v) (k_input v) (came [l]) (handed_by w l).
Proof.
  destruct l as [b|i|i ok|i|x|x|x]; cbn [port_step came flat_map app handed_by].
  - destruct (k_open w); [|discriminate]. intro H. injection H as <-. destruct w; cbn. constructor.
  - destruct (nth_error (k_threads w) i) as [t|] eqn:E; [|discriminate].
    destruct t as [| | |b|c|]; try discriminate.
    + intro H. injection H as <-. rewrite set_reader_input, (@set_reader_quiet i _ _ w E) by (try destruct (k_active w); reflexivity).
      constructor.
    + destruct (k_open w); cbn [negb]; [|intro H; injection H as <-; rewrite set_reader_input, (@set_reader_quiet i _ _ w E) by reflexivity; constructor].
      destruct (k_cancelled w).
      * intro H. injection H as <-. rewrite set_reader_input.
        assert (E' : nth_error (k_threads (set_cancelled false w)) i = Some KRead) by (destruct w; exact E).
        rewrite (@set_reader_quiet i _ _ _ E') by reflexivity. destruct w; constructor.
      * destruct (k_input w) as [|b r] eqn:I; [discriminate|]. intro H. injection H as <-.
        assert (E' : nth_error (k_threads (set_input r w)) i = Some KRead) by (destruct w; exact E).
        destruct (set_reader_held i (KGot b) _ E') as (p & q & H1 & H2).
        rewrite H2, set_reader_input. replace (held w) with (held (set_input r w)) by (destruct w; reflexivity).
        rewrite H1. replace (k_input (set_input r w)) with r by (destruct w; reflexivity). cbn. constructor.
    + intro H. injection H as <-. destruct (set_reader_held i (KBusy CNone) _ E) as (p & q & H1 & H2).
      rewrite H1, H2, set_reader_input. cbn. constructor.
  - destruct (nth_error (k_threads w) i) as [t|] eqn:E; [|discriminate].
    destruct t as [| | |b|[]|]; try discriminate. intro H. injection H as <-.
    rewrite set_reader_input, (@set_reader_quiet i _ _ w E) by (destruct ok; reflexivity). constructor.
  - destruct (nth_error (k_threads w) i) as [t|] eqn:E; [|discriminate]. destruct t; try discriminate.
    destruct (k_open w); [|discriminate]. intro H. injection H as <-. rewrite set_reader_input.
    assert (E' : nth_error (k_threads (close_port w)) i = Some KRead) by (destruct w; exact E).
    rewrite (@set_reader_quiet i _ _ _ E') by reflexivity. destruct w; constructor.
  - destruct (the_call w x) as [[]|] eqn:E; try discriminate. intro H. injection H as <-.
    apply call_quiet with CNone; [rewrite the_call_active; exact E| |]; destruct w; reflexivity.
  - destruct (the_call w x) as [[]|] eqn:E; try discriminate. intro H. injection H as <-.
    apply call_quiet with CNone; [rewrite the_call_active; exact E| |]; destruct w; reflexivity.
  - destruct (the_call w x) as [c|] eqn:E; [|discriminate].
    assert (Q : forall d, moves (held w) (k_input w) (held (set_call x d w)) (k_input (set_call x d w)) [] [])
      by (intro d; apply call_quiet with c; auto).
    destruct c; try discriminate.
    + intro H. injection H as <-. apply call_quiet with CCancel; [rewrite the_call_cancelled; exact E| |]; destruct w; reflexivity.
    + intro H. injection H as <-. apply Q.
    + destruct (nth_error (k_threads w) j) as [t|]; [|intro H; injection H as <-; apply Q].
      destruct t; try (intro H; injection H as <-; apply Q);
        (destruct x; [discriminate|]; destruct (Nat.eqb _ _); [intro H; injection H as <-; apply Q | discriminate]).
    + intro H. injection H as <-. apply call_quiet with CCreate; [apply the_call_create; exact E| |]; destruct w; cbn; [|reflexivity].
      unfold held. cbn. rewrite flat_map_app. cbn. apply app_nil_r.
    + intro H. injection H as <-. destruct (nth_error (k_threads w) (k_last w)) as [t|] eqn:L; [|apply Q].
      destruct t; try apply Q. apply call_quiet with CBegin.
      * apply the_call_start; assumption.
      * apply set_reader_quiet with KNew; auto.
      * apply set_reader_input.
Qed.

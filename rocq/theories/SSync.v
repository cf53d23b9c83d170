(** What several threads may expect of [execute_command]. *)
From Verif Require Export SModem MSync.

(** the messages the reader took, with their types *)
Fixpoint arrived (ls : list MLabel) : list (Z * Msg) :=
  match ls with
  | [] => []
  | MArrive t x :: r => (t, x) :: arrived r
  | _ :: r => arrived r
  end.
(** [x] arrived and is untagged or carries the tag of a synchronous call *)
Definition mknown (ls : list MLabel) (x : Msg) : Prop :=
  exists c, x = MCmd c /\ (exists t, In (MArrive t x) ls /\ t <= 3)
    /\ (c_tag c = None \/ exists i, In (MCall i (c_tag c) true) ls).

(** ALP messages: those of a type up to "ping response" *)
Definition alp_messages (l : list (Z * Msg)) : list Msg := map snd (filter (fun tx => fst tx <=? 3) l).
(** where ALP messages can be: in a list of responses, handed to the callback,
    among the unsolicited ones, or still in the hands of the reader *)
Definition held (r : RPC) : list Msg :=
  match r with
  | RTest t x => if t <=? 3 then [x] else []
  | RLoad x | RAppend _ x => [x]
  | RIdle | RDone _ => []
  end.
Definition whereabouts (w : MWorld) : list Msg :=
  concat (m_heap (mw_m w)) ++ m_cb_calls (mw_m w) ++ m_unsol (mw_m w) ++ held (mw_r w).

(** An application that serialises its calls, for example with a lock around
    [execute_command]: a call starts only when no thread is in one.  Moreover
    the reader handles no message during the set-up of a call. *)
Definition setting_up (p : MPC) : bool :=
  match p with Running a => resetting a | Asserting _ => true end.
Definition one_at_a_time (w : MWorld) (l : MLabel) : Prop :=
  match l with
  | MCall _ _ _ => Forall (eq (Running AIdle)) (mw_t w) /\ mw_r w = RIdle
  | MArrive _ _ => existsb setting_up (mw_t w) = false
  | _ => True
  end.
Inductive serialised : MWorld -> list MLabel -> MWorld -> Prop :=
| serialised_nil w : serialised w [] w
| serialised_cons w l w1 ls w2 : one_at_a_time w l -> mstep w l = Some w1 -> serialised w1 ls w2 ->
    serialised w (l :: ls) w2.
Definition no_call (ls : list MLabel) : Prop := forall i tag sync, ~ In (MCall i tag sync) ls.
(** A call ended as its caller expects: it gave back an empty list; or it was
    synchronous and gave back a completed run of the answers to its own tag that
    arrived after it began and before any other call did *)
Definition as_expected (ls : list MLabel) (e : nat * option Z * Outcome) : Prop :=
  let '(i, tag, out) := e in
  match out with
  | Raised => False
  | Returned obj value =>
      (obj = None /\ value = [] /\ exists sync, In (MCall i tag sync) ls)
      \/ exists before during later sel,
           ls = before ++ MCall i tag true :: during ++ later /\ no_call during
           /\ answers_in tag (arrived during) sel /\ prefix value sel /\ some_completed value
  end.

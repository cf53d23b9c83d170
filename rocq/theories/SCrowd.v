(** What several threads may expect of [execute_command] with several readers. *)
From Coq Require Export Permutation.
From Verif Require Export SSync MCrowd.

(** the messages the readers took, with their types *)
Definition taken (ls : list CrowdLabel) : list (Z * Msg) :=
  flat_map (fun l => match l with NArrive _ t x => [(t, x)] | _ => [] end) ls.
(** [x] was taken and is untagged or carries the tag of a synchronous call *)
Definition crowd_known (ls : list CrowdLabel) (x : Msg) : Prop :=
  exists c, x = MCmd c /\ (exists t, In (t, x) (taken ls) /\ t <= 3)
    /\ (c_tag c = None \/ exists i, In (NCall i (c_tag c) true) ls).
(** where ALP messages can be: in a list of responses, handed to the callback,
    among the unsolicited ones, or still in the hands of a reader *)
Definition everywhere (w : Crowd) : list Msg :=
  concat (m_heap (cr_m w)) ++ m_cb_calls (cr_m w) ++ m_unsol (cr_m w) ++ flat_map held (cr_r w).

(** the calls are serialised: a call starts only when no thread is in one.  Moreover
    no reader handles a message during the set-up of a call. *)
Definition in_turn (w : Crowd) (l : CrowdLabel) : Prop :=
  match l with
  | NCall _ _ _ => Forall (eq (Running AIdle)) (cr_t w) /\ Forall (eq RIdle) (cr_r w)
  | NArrive _ _ _ => existsb setting_up (cr_t w) = false
  | _ => True
  end.
Inductive calls_in_turn : Crowd -> list CrowdLabel -> Crowd -> Prop :=
| turn_nil w : calls_in_turn w [] w
| turn_cons w l w1 ls w2 : in_turn w l -> crowd_step w l = Some w1 -> calls_in_turn w1 ls w2 ->
    calls_in_turn w (l :: ls) w2.
Definition no_new_call (ls : list CrowdLabel) : Prop := forall i tag sync, ~ In (NCall i tag sync) ls.
(** A call gave back an empty list; or it was synchronous and gave back answers to its
    own tag, each taken by some reader after the call began and before any other call
    did, none twice, and one of them says that the execution is complete.  Answers may
    be missing ([others]), and the order may be another than that in which the readers
    took them. *)
Definition own_answers (ls : list CrowdLabel) (e : nat * option Z * Outcome) : Prop :=
  let '(i, tag, out) := e in
  match out with
  | Raised => False
  | Returned obj value =>
      (obj = None /\ value = [] /\ exists sync, In (NCall i tag sync) ls)
      \/ exists before during later sel others,
           ls = before ++ NCall i tag true :: during ++ later /\ no_new_call during
           /\ answers_in tag (taken during) sel /\ Permutation (value ++ others) sel /\ some_completed value
  end.
(** the same with one reader *)
Definition for_one (l : CrowdLabel) : MLabel :=
  match l with
  | NArrive _ t x => MArrive t x
  | NReader _ => MReader
  | NCall i tag sync => MCall i tag sync
  | NThread i => MThread i
  | NTimeout i => MTimeout i
  end.
(** all messages are handled by reader 0 *)
Definition by_first (l : CrowdLabel) : Prop := match l with NArrive j _ _ | NReader j => j = 0%nat | _ => True end.

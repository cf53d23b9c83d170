(** Specification for C103: where, and why, the parser stops in a payload. *)
From Coq Require Import String.
From Verif Require Export SCause MWhere.
Close Scope string_scope.
Open Scope list_scope.
Open Scope Z_scope.

(** bits are missing *)
Definition asks_for_more (e : exn) : Prop := e = ReadError \/ e = BoolEof.
(** the same stream, ending at position [k] *)
Definition cut_at (k : nat) (s : stream) : stream := St (pos s) (firstn (k - pos s) (bits s)).
(** two streams that agree up to position [k], which both reach *)
Definition agree_to (k : nat) (s t : stream) : Prop :=
  pos s = pos t /\ cut_at k s = cut_at k t /\ (k <= pos s + List.length (bits s))%nat /\ (k <= pos t + List.length (bits t))%nat.
(** A payload of [len] bytes is refused with [e] for what stands before
    position [p]: any stream that agrees with it up to [p] is refused so, and
    whatever ends earlier is not refused but lacks bits. *)
Definition refused_at (len : Z) (s : stream) (e : exn) (p : nat) : Prop :=
  (pos s <= p <= pos s + List.length (bits s))%nat
  /\ (forall t, agree_to p s t -> alp_parse len t = Err e)
  /\ (forall k, (pos s <= k < p)%nat -> exists e', alp_parse len (cut_at k s) = Err e' /\ asks_for_more e').

(** the number in the bits from position [a] up to [b] *)
Definition field (s : stream) (a b : nat) (v : Z) : Prop :=
  (pos s <= a /\ a <= b /\ b <= pos s + List.length (bits s))%nat
  /\ bits_val (firstn (b - a) (skipn (a - pos s) (bits s))) = v.
(** the classes that are read from a payload, with their width in bits and
    their values *)
Inductive Class := KActionCondition | KStorageClass | KComparison | KQueryType | KIdType | KNlsMethod
  | KRetryMode | KResponseMode | KChannelBand | KChannelClass | KChannelCoding | KInterfaceType.
Definition class_text (c : Class) : string :=
  match c with
  | KActionCondition => "ActionCondition" | KStorageClass => "StorageClass"
  | KComparison => "ArithComparisonType" | KQueryType => "QueryType" | KIdType => "IdType"
  | KNlsMethod => "NlsMethod" | KRetryMode => "RetryMode" | KResponseMode => "ResponseMode"
  | KChannelBand => "ChannelBand" | KChannelClass => "ChannelClass" | KChannelCoding => "ChannelCoding"
  | KInterfaceType => "InterfaceType"
  end%string.
Definition class_bits (c : Class) : nat :=
  match c with
  | KActionCondition | KComparison | KQueryType | KRetryMode | KResponseMode | KChannelBand => 3
  | KStorageClass | KIdType | KChannelClass | KChannelCoding => 2
  | KNlsMethod => 4 | KInterfaceType => 8
  end.
Definition class_values (c : Class) : list Z :=
  match c with
  | KActionCondition | KStorageClass | KIdType | KChannelClass | KChannelCoding => [0; 1; 2; 3]
  | KComparison => [0; 1; 2; 3; 4; 5]
  | KQueryType => [0; 1; 2; 3; 4; 7]
  | KNlsMethod => [0; 1; 2; 3; 4; 5; 6; 7]
  | KRetryMode => [0]
  | KResponseMode => [0; 1; 2; 4; 5; 6]
  | KChannelBand => [0; 2; 3; 4]
  | KInterfaceType => [0; 1; 2; 3; 215]
  end.
(** where they stand: operations and position behind the value, counted from
    the beginning of the action *)
Definition class_places (c : Class) : list (Z * nat) :=
  match c with
  | KActionCondition => [(17, 28%nat); (33, 28%nat)]
  | KStorageClass => [(17, 32%nat); (33, 32%nat)]
  | KQueryType => [(9, 11%nat)]
  | KComparison => [(9, 16%nat)]
  | KInterfaceType => [(50, 16%nat)]
  | KRetryMode => [(50, 21%nat)]
  | KResponseMode => [(50, 24%nat)]
  | KIdType => [(50, 36%nat); (51, 20%nat); (34, 108%nat)]
  | KNlsMethod => [(50, 40%nat); (51, 24%nat); (34, 112%nat)]
  | KChannelBand => [(34, 28%nat)]
  | KChannelClass => [(34, 30%nat)]
  | KChannelCoding => [(34, 32%nat)]
  end.
Definition known_actions : list Z := [1; 4; 9; 17; 32; 33; 34; 35; 50; 51; 52].

(** where the actions of a command begin *)
Inductive starts (s : stream) : stream -> Prop :=
| st_first : starts s s
| st_next t a t' : starts s t -> parse_action t = Ok (a, t') -> starts s t'.
Definition first_byte (t : stream) (n : Z) : Prop := field t (pos t) (pos t + 8) n.
Definition operation (t : stream) (n : Z) : Prop := field t (pos t + 2) (pos t + 8) n.
(** What a text says about the first [k] bits of an action: the operation is
    unknown; reserved bits are set; the interface has no status that can be
    read; the host has none; a value is outside its class. *)
Inductive tells_at (t : stream) : nat -> string -> Prop :=
| te_action n : operation t n -> ~ In n known_actions ->
    tells_at t 8 ("alp_action " ++ dec_str n ++ " is not implemented")%string
| te_extension : field t (pos t) (pos t + 1) 1 -> operation t 34 -> tells_at t 8 "Status Operand extension 2 and 3 is RFU"%string
| te_bit6 : field t (pos t + 1) (pos t + 2) 1 -> operation t 52 -> tells_at t 8 "bit 6 is RFU"%string
| te_bit7 : field t (pos t) (pos t + 1) 1 -> operation t 50 -> tells_at t 8 "bit 7 is RFU"%string
| te_interface i : first_byte t (64 + 34) -> field t (pos t + 8) (pos t + 16) i -> ~ In i [0; 1; 215] ->
    tells_at t 24 ("Received ALP Interface status for interface " ++ dec_str i ++ " which is not implemented")%string
| te_host : first_byte t (64 + 34) -> field t (pos t + 8) (pos t + 16) 0 ->
    tells_at t 24 "'NoneType' object has no attribute 'op'"%string
| te_class c n k v : operation t n -> In (n, k) (class_places c) ->
    field t (pos t + k - class_bits c) (pos t + k) v -> ~ In v (class_values c) ->
    tells_at t k (dec_str v ++ " is not a valid " ++ class_text c)%string.
Definition tells (s : stream) (p : nat) (text : string) : Prop :=
  exists t k, starts s t /\ p = (pos t + k)%nat /\ tells_at t k text.
(** What can only be seen from the whole command: two of its actions give the
    interface status, or a tag; the text names the later one. *)
Inductive told_twice (s : stream) (p : nat) : string -> Prop :=
| tw_status t u : starts s t -> starts s u -> (pos t < pos u < p)%nat -> first_byte t (64 + 34) -> first_byte u (64 + 34) ->
    told_twice s p "An ALP command can contain one and only one Interface Status action"%string
| tw_request t u n : starts s t -> starts s u -> (pos t < pos u < p)%nat -> operation t n -> In n [35; 52] -> operation u 52 ->
    told_twice s p "An ALP command can contain one and only one Tag Request Action"%string
| tw_response t u n : starts s t -> starts s u -> (pos t < pos u < p)%nat -> operation t n -> In n [35; 52] -> operation u 35 ->
    told_twice s p "An ALP command can contain one and only one Tag Response Action"%string.
(** The causes for which "error" is not a text but what cerberus makes: the level of
    an interface status is read as a negative number; a status of an action is
    read as no action at all. *)
Inductive unsaid (s : stream) (p : nat) : Prop :=
| un_level t v : starts s t -> first_byte t (64 + 34) -> field t (pos t + 8) (pos t + 16) 215 ->
    field t (pos t + 48) (pos t + 56) v -> 128 <= v -> (pos t + 56 <= p)%nat -> unsaid s p
| un_status t : starts s t -> first_byte t 34 -> (pos t + 8 <= p)%nat -> unsaid s p.

(** a payload of [len] bytes is refused with [e], and an entry with this
    "error" and "pos" says where and why *)
Definition explains (len : Z) (s : stream) (e : exn) (text : option string) (p : nat) : Prop :=
  refused_at len s e p
  /\ match text with
     | Some t => tells s p t \/ (e = ParseError /\ told_twice s p t /\ 8 * len <= Z.of_nat p - Z.of_nat (pos s))
     | None => e = ValueError /\ unsaid s p
     end.
(** the entry for a frame with this payload *)
Definition entry_of (payload : list Z) : list (option string * nat) :=
  flat_map error_and_pos (snd (parse_rounds true (new_parser false) (frame 1 1 payload))).

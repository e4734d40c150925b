(** What a policy text asks of a platform, read off the statements. *)
From Verif Require Export SpecSaid SpecNft SpecIptables SpecPcap ModelWhole.
Local Open Scope string_scope.
Local Open Scope list_scope.
Local Open Scope Z_scope.

(** The options of the first target:: statement that names the platform. *)
Definition options_for (platform : string) (l : list stmt) : option (list string) :=
  match filter (fun t => String.eqb (fst t) platform) (flat_map target_of (said "target" l)) with
  | t :: _ => Some (snd t)
  | [] => None
  end.
(** The filters of the text that are aimed at the platform. *)
Definition aimed (platform : string) (fs : list filter_text) : list (list string * list term_text) :=
  flat_map (fun f => match options_for platform (fst f) with Some o => [(o, snd f)] | None => [] end) fs.
(** The term has not expired: its expiration, if it gives a day of the calendar, is after
    today. *)
Definition text_in_force (today : Z * Z * Z) (l : list stmt) : Prop :=
  forall y m d, last_of (said "expiration" l) = Some (VDate y m d) -> calendar_day y m d -> earlier_day today (y, m, d).
(** A term of the text applies to a packet and has an outcome; verdicts are the platform's
    words for the action. *)
Definition text_says (lookup : string -> res (list net)) (services : table) (today : Z * Z * Z)
    (verdict : list string -> string -> Prop) (p : packet) (x : term_text) (outcome : string) : Prop :=
  text_in_force today (snd x) /\ text_matches lookup services (snd x) p /\ verdict (words_said "action" (snd x)) outcome.
(** Every network name used in the text stands for some network. *)
Definition text_names_nonempty (lookup : string -> res (list net)) (fs : list filter_text) : Prop :=
  Forall (fun f => Forall (fun x => names_nonempty lookup (snd x)) (snd f)) fs.
(** What an action asks for, in the words of the configuration. *)
Definition nft_action (action : list string) (o : string) : Prop := exists a, action = [a] /\ o = nft_verdict a.
Definition ipt_action (action : list string) (o : string) : Prop := exists a r, action = a :: r /\ ipt_verdict a = Some o.
Definition pcap_action (action : list string) (o : string) : Prop :=
  exists a r, action = a :: r /\ o = (if String.eqb a "accept" then "accept" else "deny").

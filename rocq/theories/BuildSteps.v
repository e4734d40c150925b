(** Proofs about the objects built from the statements of a text: one statement. *)
From Coq Require Import Lia ZifyBool ZifyNat.
From Verif Require Import SpecSaid BaseFacts PortNameProofs GenProofs ParseProofs.
Local Open Scope string_scope.
Local Open Scope list_scope.

(** ** The statements, one by one *)

Ltac in_cases H := repeat (destruct H as [H|H]; [|]); [..|destruct H].
Ltac assoc_cases H :=
  apply assoc_in in H; repeat (destruct H as [H|H]; [apply pair_equal_spec in H; destruct H as [<- H]|]); [..|destruct H].

(** What a statement adds to an attribute. *)
Definition grows {A} (k : string) (get : pterm -> list A) (f : value -> list A) (s : stmt) (p p' : pterm) : Prop :=
  get p' = if String.eqb (fst s) k then get p ++ f (snd s) else get p.
Definition replaces {A} (k : string) (get : pterm -> option A) (f : value -> list A) (s : stmt) (p p' : pterm) : Prop :=
  if String.eqb (fst s) k then exists a, f (snd s) = [a] /\ get p' = Some a else get p' = get p.

Section Add.
  Context (lookup : string -> res (list net)).

  (** The cases of [add_object]. *)
  Lemma add_object_cases (P : stmt -> pterm -> pterm -> Prop) p :
    (forall k get set l nets, address_field k = Some (get, set) -> mapM lookup l = Ok nets ->
       P (k, VList l) p (on_term (fun t => set (get t ++ concat nets) t) p)) ->
    (forall k get set l, list_field k = Some (get, set) ->
       P (k, VList l) p (on_term (fun t => set (get t ++ l) t) p)) ->
    (forall l, let r := p_raw p in P ("port", VList l) p
       (mkP (mkRaw (r_port r ++ l) (r_source_port r) (r_destination_port r) (r_term r)) (p_extra p))) ->
    (forall l, let r := p_raw p in P ("source-port", VList l) p
       (mkP (mkRaw (r_port r) (r_source_port r ++ l) (r_destination_port r) (r_term r)) (p_extra p))) ->
    (forall l, let r := p_raw p in P ("destination-port", VList l) p
       (mkP (mkRaw (r_port r) (r_source_port r) (r_destination_port r ++ l) (r_term r)) (p_extra p))) ->
    (forall k l x, extra_list k l (p_extra p) = Some x -> P (k, VList l) p (mkP (p_raw p) x)) ->
    (forall k set v, text_field k = Some set -> P (k, VText v) p (on_term (set (Some v)) p)) ->
    (forall v, P ("comment", VText v) p (on_term (fun t => set_comment (t_comment t ++ [comment_value v]) t) p)) ->
    (forall v nets, lookup v = Ok nets -> P ("next-ip", VText v) p (on_term (set_next_ip nets) p)) ->
    (forall v, In v actions -> P ("action", VText v) p (on_term (fun t => set_action (t_action t ++ [v]) t) p)) ->
    (forall v, In v logging_values ->
       P ("logging", VText v) p (on_term (fun t => set_logging (t_logging t ++ [v]) t) p)) ->
    (forall v n, numeral_value v = Some n -> P ("traffic-class", VText v) p (on_term (set_traffic_class (Some n)) p)) ->
    (forall v n, numeral_value v = Some n -> P ("ttl", VText v) p (on_term (set_ttl (Some n)) p)) ->
    (forall k v x, extra_text k v (p_extra p) = Some x -> P (k, VText v) p (mkP (p_raw p) x)) ->
    (forall l, P ("precedence", VInts l) p (on_term (set_precedence (map dec l)) p)) ->
    (forall l, l <> [] -> P ("icmp-code", VInts l) p (on_term (fun t => set_icmp_code (t_icmp_code t ++ l) t) p)) ->
    (forall a b, let v := match b with Some b => (a ++ "-" ++ b)%string | None => a end in
       P ("packet-length", VRange a b) p (on_term (set_packet_length (Some v)) p)) ->
    (forall a b, let v := match b with Some b => (a ++ "-" ++ b)%string | None => a end in
       P ("fragment-offset", VRange a b) p (on_term (set_fragment_offset (Some v)) p)) ->
    (forall a b, let v := match b with Some b => (a ++ "-" ++ b)%string | None => a end in
       P ("hop-limit", VRange a b) p (on_term (set_hop_limit (Some v)) p)) ->
    (forall y m d n, date_ordinal y m d = Ok n -> P ("expiration", VDate y m d) p (on_term (set_expiration (Some n)) p)) ->
    (forall a b, P ("verbatim", VPair a b) p
       (on_term (fun t => set_verbatim (t_verbatim t ++ [(a, unescape (strip_dq b))]) t) p)) ->
    (forall k a b x, extra_pair k a b (p_extra p) = Some x -> P (k, VPair a b) p (mkP (p_raw p) x)) ->
    (forall k l x, extra_pairs k l (p_extra p) = Some x -> P (k, VPairs l) p (mkP (p_raw p) x)) ->
    forall s p', add_object lookup s p = Ok p' -> P s p p'.
  Proof.
    intros C1 C2 C3 C4 C5 C6 C7 C8 C9 C10 C11 C12 C13 C14 C15 C16 C17 C18 C19 C20 C21 C22 C23 [k v] p' H.
    unfold add_object in H. cbn [fst snd] in H. destruct v as [l|v|l|a b|y m d|a b|l].
    - destruct (address_field k) as [[get set]|] eqn:E1.
      { destruct (mapM lookup l) as [nets|] eqn:E; [|discriminate]. cbn [bind] in H. injection H as <-. eauto. }
      destruct (list_field k) as [[get set]|] eqn:E2; [injection H as <-; eauto|].
      destruct (String.eqb_spec k "port") as [->|_]; [injection H as <-; apply C3|].
      destruct (String.eqb_spec k "source-port") as [->|_]; [injection H as <-; apply C4|].
      destruct (String.eqb_spec k "destination-port") as [->|_]; [injection H as <-; apply C5|].
      unfold or_bad in H. destruct (extra_list k l (p_extra p)) as [x|] eqn:E; [|discriminate].
      injection H as <-. eauto.
    - destruct (text_field k) as [set|] eqn:E1; [injection H as <-; eauto|].
      destruct (String.eqb_spec k "comment") as [->|_]; [injection H as <-; apply C8|].
      destruct (String.eqb_spec k "next-ip") as [->|_].
      { destruct (lookup v) as [nets|] eqn:E; [|discriminate]. cbn [bind] in H. injection H as <-. eauto. }
      destruct (String.eqb_spec k "action") as [->|_].
      { destruct (str_in v actions) eqn:E; [|discriminate]. injection H as <-. apply C10. now apply str_in_spec. }
      destruct (String.eqb_spec k "logging") as [->|_].
      { destruct (str_in v logging_values) eqn:E; [|discriminate]. injection H as <-. apply C11. now apply str_in_spec. }
      destruct (String.eqb_spec k "traffic-class") as [->|_].
      { destruct (py_int v) as [n|] eqn:E; [|discriminate]. cbn [bind] in H. injection H as <-. apply C12.
        now apply py_int_numeral. }
      destruct (String.eqb_spec k "ttl") as [->|_].
      { destruct (py_int v) as [n|] eqn:E; [|discriminate]. cbn [bind] in H. injection H as <-. apply C13.
        now apply py_int_numeral. }
      unfold or_bad in H. destruct (extra_text k v (p_extra p)) as [x|] eqn:E; [|discriminate].
      injection H as <-. eauto.
    - destruct (String.eqb_spec k "precedence") as [->|_]; [injection H as <-; apply C15|].
      destruct (String.eqb_spec k "icmp-code") as [->|_]; [|discriminate].
      destruct l as [|z l]; [discriminate|]. injection H as <-. now apply C16.
    - destruct (String.eqb_spec k "packet-length") as [->|_]; [injection H as <-; apply C17|].
      destruct (String.eqb_spec k "fragment-offset") as [->|_]; [injection H as <-; apply C18|].
      destruct (String.eqb_spec k "hop-limit") as [->|_]; [injection H as <-; apply C19|discriminate].
    - destruct (String.eqb_spec k "expiration") as [->|_]; [|discriminate].
      destruct (date_ordinal y m d) as [n|] eqn:E; [|discriminate]. cbn [bind] in H. injection H as <-. auto.
    - destruct (String.eqb_spec k "verbatim") as [->|_]; [injection H as <-; apply C21|].
      unfold or_bad in H. destruct (extra_pair k a b (p_extra p)) as [x|] eqn:E; [|discriminate].
      injection H as <-. eauto.
    - unfold or_bad in H. destruct (extra_pairs k l (p_extra p)) as [x|] eqn:E; [|discriminate].
      injection H as <-. eauto.
  Qed.

  (** Goals after the case analysis: a concrete keyword and a concrete new object. *)
  Ltac field_cases :=
    match goal with
    | H : address_field _ = Some _ |- _ => assoc_cases H; apply pair_equal_spec in H; destruct H as [<- <-]
    | H : list_field _ = Some _ |- _ => assoc_cases H; apply pair_equal_spec in H; destruct H as [<- <-]
    | H : text_field _ = Some _ |- _ => assoc_cases H; subst
    | H : extra_list _ _ _ = Some _ |- _ => cbn [p_extra extra_list] in H; assoc_cases H; subst
    | H : extra_text _ _ _ = Some _ |- _ => cbn [p_extra extra_text] in H; assoc_cases H; subst
    | H : extra_pairs _ _ _ = Some _ |- _ => cbn [p_extra extra_pairs] in H; assoc_cases H; subst
    | H : extra_pair _ _ _ _ = Some _ |- _ => cbn [p_extra extra_pair] in H; assoc_cases H; subst
    | _ => idtac
    end.

  Ltac step_cases Q :=
    match goal with |- add_object _ ?s ?p = Ok ?p' -> _ => revert s p' end;
    match goal with p : pterm |- _ => destruct p as [[? ? ? ?] []] end;
    apply (add_object_cases Q); intros; field_cases.
  Lemma collected_step s p p' : add_object lookup s p = Ok p' ->
    Forall (fun kg => grows (fst kg) (snd kg) value_words s p p') collected.
  Proof.
    step_cases (fun s p p' => Forall (fun kg => grows (fst kg) (snd kg) value_words s p p') collected).
    all: repeat (apply Forall_cons; [reflexivity|]); apply Forall_nil.
  Qed.
  Lemma settled_step s p p' : add_object lookup s p = Ok p' ->
    Forall (fun kg => replaces (fst kg) (snd kg) value_words s p p') settled.
  Proof.
    step_cases (fun s p p' => Forall (fun kg => replaces (fst kg) (snd kg) value_words s p p') settled).
    all: try match goal with b : option string |- _ => destruct b end.
    all: repeat (apply Forall_cons; [first [reflexivity | eexists; split; reflexivity]|]); apply Forall_nil.
  Qed.
  Definition adds_nets (k : string) (get : pterm -> list net) (s : stmt) (p p' : pterm) : Prop :=
    if String.eqb (fst s) k
    then exists nets, mapM lookup (value_words (snd s)) = Ok nets /\ get p' = get p ++ concat nets
    else get p' = get p.
  Lemma networks_step s p p' : add_object lookup s p = Ok p' ->
    Forall (fun kg => adds_nets (fst kg) (snd kg) s p p') networks.
  Proof.
    step_cases (fun s p p' => Forall (fun kg => adds_nets (fst kg) (snd kg) s p p') networks).
    all: repeat (apply Forall_cons; [first [reflexivity | eexists; split; [eassumption|reflexivity]]|]);
      apply Forall_nil.
  Qed.
  Definition verbatim_of (v : value) : list (string * string) :=
    map (fun ab => (fst ab, unescape (strip_dq (snd ab)))) (value_pairs v).
  Lemma others_step s p p' : add_object lookup s p = Ok p' ->
    Forall (fun kg => grows (fst kg) (snd kg) value_pairs s p p') paired /\
    Forall (fun kg => replaces (fst kg) (snd kg) value_pairs s p p') one_pair /\
    grows "comment" (fun p => t_comment (p_term p)) (fun v => map comment_value (value_words v)) s p p' /\
    grows "verbatim" (fun p => t_verbatim (p_term p)) verbatim_of s p p' /\
    grows "icmp-code" (fun p => t_icmp_code (p_term p)) value_numbers s p p' /\
    replaces "precedence" (fun p => Some (t_precedence (p_term p))) (fun v => [map dec (value_numbers v)]) s p p' /\
    replaces "log_name" (fun p => x_log_name (p_extra p)) (fun v => map comment_value (value_words v)) s p p' /\
    t_name (p_term p') = t_name (p_term p).
  Proof.
    step_cases (fun s p p' =>
      Forall (fun kg => grows (fst kg) (snd kg) value_pairs s p p') paired /\
      Forall (fun kg => replaces (fst kg) (snd kg) value_pairs s p p') one_pair /\
      grows "comment" (fun p => t_comment (p_term p)) (fun v => map comment_value (value_words v)) s p p' /\
      grows "verbatim" (fun p => t_verbatim (p_term p)) verbatim_of s p p' /\
      grows "icmp-code" (fun p => t_icmp_code (p_term p)) value_numbers s p p' /\
      replaces "precedence" (fun p => Some (t_precedence (p_term p))) (fun v => [map dec (value_numbers v)]) s p p' /\
      replaces "log_name" (fun p => x_log_name (p_extra p)) (fun v => map comment_value (value_words v)) s p p' /\
      t_name (p_term p') = t_name (p_term p)).
    all: repeat apply conj; try (first [reflexivity | eexists; split; reflexivity]).
    all: repeat (apply Forall_cons; [first [reflexivity | eexists; split; reflexivity]|]); apply Forall_nil.
  Qed.
  Definition reads_number (k : string) (get : pterm -> option Z) (s : stmt) (p p' : pterm) : Prop :=
    if String.eqb (fst s) k
    then exists w n, value_words (snd s) = [w] /\ numeral_value w = Some n /\ get p' = Some n
    else get p' = get p.
  Lemma numbers_step s p p' : add_object lookup s p = Ok p' ->
    reads_number "ttl" (fun p => t_ttl (p_term p)) s p p' /\
    reads_number "traffic-class" (fun p => t_traffic_class (p_term p)) s p p' /\
    (if String.eqb (fst s) "expiration"
     then exists y m d n, snd s = VDate y m d /\ date_ordinal y m d = Ok n /\ t_expiration (p_term p') = Some n
     else t_expiration (p_term p') = t_expiration (p_term p)) /\
    (if String.eqb (fst s) "next-ip"
     then exists w nets, value_words (snd s) = [w] /\ lookup w = Ok nets /\ t_next_ip (p_term p') = nets
     else t_next_ip (p_term p') = t_next_ip (p_term p)).
  Proof.
    step_cases (fun s p p' =>
      reads_number "ttl" (fun p => t_ttl (p_term p)) s p p' /\
      reads_number "traffic-class" (fun p => t_traffic_class (p_term p)) s p p' /\
      (if String.eqb (fst s) "expiration"
       then exists y m d n, snd s = VDate y m d /\ date_ordinal y m d = Ok n /\ t_expiration (p_term p') = Some n
       else t_expiration (p_term p') = t_expiration (p_term p)) /\
      (if String.eqb (fst s) "next-ip"
       then exists w nets, value_words (snd s) = [w] /\ lookup w = Ok nets /\ t_next_ip (p_term p') = nets
       else t_next_ip (p_term p') = t_next_ip (p_term p))).
    all: repeat apply conj; try reflexivity.
    - eexists _, _. repeat split; eassumption.
    - eexists _, _. repeat split; eassumption.
    - eexists _, _. repeat split; eassumption.
    - eexists _, _, _, _. repeat split; eassumption.
  Qed.
  (** attributes the text does not set *)
  Lemma untouched_step s p p' : add_object lookup s p = Ok p' ->
    t_port (p_term p') = t_port (p_term p) /\ t_source_port (p_term p') = t_source_port (p_term p) /\
    t_destination_port (p_term p') = t_destination_port (p_term p) /\
    t_stateless_reply (p_term p') = t_stateless_reply (p_term p) /\
    t_translated (p_term p') = t_translated (p_term p) /\ t_flattened (p_term p') = t_flattened (p_term p) /\
    t_flattened_addr (p_term p') = t_flattened_addr (p_term p) /\
    t_flattened_saddr (p_term p') = t_flattened_saddr (p_term p) /\
    t_flattened_daddr (p_term p') = t_flattened_daddr (p_term p).
  Proof.
    step_cases (fun (_ : stmt) p p' =>
      t_port (p_term p') = t_port (p_term p) /\ t_source_port (p_term p') = t_source_port (p_term p) /\
      t_destination_port (p_term p') = t_destination_port (p_term p) /\
      t_stateless_reply (p_term p') = t_stateless_reply (p_term p) /\
      t_translated (p_term p') = t_translated (p_term p) /\ t_flattened (p_term p') = t_flattened (p_term p) /\
      t_flattened_addr (p_term p') = t_flattened_addr (p_term p) /\
      t_flattened_saddr (p_term p') = t_flattened_saddr (p_term p) /\
      t_flattened_daddr (p_term p') = t_flattened_daddr (p_term p)).
    all: repeat apply conj; reflexivity.
  Qed.
End Add.


(** Properties of the checker (C21) and of port arguments (C52). *)
From Coq Require Import Lia.
From Verif Require Import SpecCheck Samples PyStrFacts PolicyProofs CheckProofs PropsPolicy.
Local Open Scope string_scope.
Local Open Scope list_scope.
Local Open Scope Z_scope.

(** ** C21 *)

(** For a single packet: the exact match is a term that matches the packet and acts, and every
    earlier term that matches it passes on, has no action, or is one whose outcome the checker
    leaves open; if there is no exact match, this is so of all terms.  The terms may only have
    conditions the checker looks at; the full claim is refuted below. *)
Theorem C21_exact_match_partial :
  forall q filtername p ts matches exact, Forall checkable ts -> asks_for q p ->
    check_terms q filtername ts = (matches, exact) ->
    (forall m, In m exact -> exists u t v, ts = u ++ t :: v /\
       m = mkMatch filtername (t_name t) [] (hd "" (t_action t)) /\
       term_matches t p /\ t_action t <> [] /\ ~ In "next" (t_action t) /\
       forall e, In e u -> term_matches e p -> t_action e = [] \/ In "next" (t_action e) \/ open_condition e) /\
    (exact = [] -> forall t, In t ts -> term_matches t p ->
       t_action t = [] \/ In "next" (t_action t) \/ open_condition t).
Proof. exact (fun q f p ts ms ex => exact_match q f p ts ms ex). Qed.
Print Assumptions C21_exact_match_partial.

(** Without open conditions the exact match is precisely the term that decides the packet. *)
Theorem C21_exact_match_is_deciding_term_partial :
  forall q filtername p ts matches exact, Forall checkable ts -> asks_for q p ->
    (forall t, In t ts -> ~ open_condition t /\ t_action t <> []) ->
    check_terms q filtername ts = (matches, exact) ->
    forall m, In m exact <->
      exists t, decides ts p t /\ m = mkMatch filtername (t_name t) [] (hd "" (t_action t)).
Proof. exact exact_iff_decides. Qed.
Print Assumptions C21_exact_match_is_deciding_term_partial.

(** The deciding term is always among the reported matches. *)
Theorem C21_deciding_term_reported_partial :
  forall q filtername p ts matches exact t, Forall checkable ts -> asks_for q p ->
    check_terms q filtername ts = (matches, exact) -> decides ts p t -> t_action t <> [] ->
    exists m, In m matches /\ m_filter m = filtername /\ m_term m = t_name t.
Proof.
  intros q f p ts ms ex t F A H D Ha. eexists. split; [exact (deciding_reported q f p ts ms ex t F A H D Ha)|]. auto.
Qed.
Print Assumptions C21_deciding_term_reported_partial.

(** Nothing is reported after an exact match, which is the last match. *)
Theorem C21_exact_match_is_last :
  forall q filtername ts matches exact, check_terms q filtername ts = (matches, exact) ->
    exact = [] \/ exists m before, exact = [m] /\ matches = before ++ [m].
Proof.
  intros q f ts ms ex H. destruct (check_terms_spec _ _ _ _ _ H) as [(-> & _)|(u & t & v & _ & Ct & _ & _ & -> & ->)]; [auto|].
  right. exists (match_of f t), (map (match_of f) (filter (term_considered q) u)). split; [reflexivity|].
  rewrite filter_app, map_app. cbn [filter]. rewrite Ct. reflexivity.
Qed.
Print Assumptions C21_exact_match_is_last.

(** ActionMatch: the terms with the action asked for that match the packet without any condition left
    open, and that are reached, because no term before them decides. *)
Theorem C21_action_match_partial :
  forall q filtername p ts matches exact a, Forall checkable ts -> asks_for q p ->
    check_terms q filtername ts = (matches, exact) ->
    forall m, In m (action_match a matches) <-> exists u t v, ts = u ++ t :: v /\
      m = mkMatch filtername (t_name t) [] (hd "" (t_action t)) /\ term_matches t p /\ ~ open_condition t /\
      hd "" (t_action t) <> "" /\ (a = "any" \/ substring_of a (hd "" (t_action t)) = true) /\
      forall e, In e u -> term_matches e p -> t_action e = [] \/ In "next" (t_action e) \/ open_condition e.
Proof. exact action_matches. Qed.
Print Assumptions C21_action_match_partial.

(** With wildcards in the query, a term passes the tests of the checker iff some packet among
    those asked about matches it. *)
Theorem C21_wildcards_partial :
  forall q t, checkable t -> ~ open_condition t -> t_action t <> [] ->
    single_or_any (q_src q) -> single_or_any (q_dst q) ->
    (forall r, In r (t_source_port t) \/ In r (t_destination_port t) -> fst r <= snd r) ->
    (t_protocol t = [] \/ t_protocol_except t = []) -> ~ In "any" (t_protocol_except t) ->
    forall filtername, fst (check_terms q filtername [t]) <> [] <-> exists p, among q p /\ term_matches t p.
Proof.
  intros q t C O Ha S1 S2 W P N f. rewrite <- (wildcard q t C O Ha S1 S2 W P N). cbn [check_terms].
  destruct (term_considered q t).
  - split; [reflexivity|]. intros _. destruct (some (possible_match t) || str_in "next" (t_action t)); cbn; discriminate.
  - cbn. split; [intros H; destruct (H eq_refl)|discriminate].
Qed.
Print Assumptions C21_wildcards_partial.

(** Filters are checked one by one: the answer for a policy is the answers for its filters. *)
Theorem C21_filters_are_independent :
  forall q filters matches exact, check_policy q filters = Ok (matches, exact) ->
    exists parts,
      Forall2 (fun f part => exists n, filter_name (fst f) = Ok n /\ part = check_terms q n (snd f)) filters parts /\
      matches = flat_map fst parts /\ exact = flat_map snd parts.
Proof. exact check_policy_spec. Qed.
Print Assumptions C21_filters_are_independent.

(** In general the exact match need not match the packet: exclusions (and either-side
    addresses and ports, and many other conditions) are not looked at. *)
Definition host (a b c d : Z) : net := v4 a b c d 32.
Definition ask (s d : net) (sp dp : Z) (proto : string) : query := mkQuery (Some s) (Some d) (Some sp) (Some dp) proto.
Lemma single_covers n : valid n -> nlen n = width (nver n) -> forall x, covers n x <-> x = (nver n, naddr n).
Proof.
  intros V E (v & a). unfold covers, size. rewrite E, Z.sub_diag. cbn. split.
  - intros [-> H]. f_equal. lia.
  - intros [= -> ->]. split; [reflexivity|lia].
Qed.
Ltac checkable_tac := constructor;
  [unfold term_valid; cbn; repeat (split; [valid_tac|]); valid_tac|repeat split|repeat split|
   cbn; intros o Ho; repeat (destruct Ho as [<-|Ho]); try destruct Ho; cbn; auto 6|
   repeat split|repeat split|repeat split|repeat split|repeat split|repeat split].
Theorem C21_exact_match_refuted :
  exists q p t matches exact, asks_for q p /\ check_terms q "f" [t] = (matches, exact) /\
    exact <> [] /\ ~ term_matches t p.
Proof.
  exists (ask (host 10 9 0 1) (host 10 3 0 2) 1024 53 "udp"), (pkt (ten 9 0 1) (ten 3 0 2) "udp" 1024 53),
    (set_source_address [v4 10 0 0 0 8] (set_source_address_exclude [v4 10 9 0 0 16] (accept "a"))).
  assert (V : valid_list [host 10 9 0 1; host 10 3 0 2]) by valid_tac.
  apply Forall_cons_iff in V. destruct V as [V1 V]. apply Forall_cons_iff in V. destruct V as [V2 _].
  eexists. eexists. split.
  { split; [exists (host 10 9 0 1); split; [reflexivity|]; split; [exact V1|exact (single_covers _ V1 eq_refl)]|].
    split; [exists (host 10 3 0 2); split; [reflexivity|]; split; [exact V2|exact (single_covers _ V2 eq_refl)]|].
    repeat split. discriminate. }
  split; [vm_compute; reflexivity|]. split; [discriminate|].
  intros ((_ & [_ H] & _) & _). apply H. exists (v4 10 9 0 0 16). split; [left; reflexivity|].
  split; [reflexivity|]. vm_compute. split; [discriminate|reflexivity].
Qed.
Print Assumptions C21_exact_match_refuted.

Definition ck_terms : list term :=
  [set_option ["tcp-established"] (set_protocol ["tcp"] (accept "replies"));
   set_action ["next"] (set_source_address [v4 10 0 0 0 8] (blank "count"));
   set_action ["deny"] (set_source_address [v4 10 1 0 0 16] (set_destination_port [(1, 1023)] (set_protocol ["tcp"; "udp"] (blank "low"))));
   accept "rest"].
Example C21_example :
  let q := ask (host 10 1 0 1) (host 10 3 0 2) 1024 22 "tcp" in
  Forall checkable ck_terms /\ asks_for q (pkt (ten 1 0 1) (ten 3 0 2) "tcp" 1024 22) /\
  check_terms q "f" ck_terms =
    ([mkMatch "f" "replies" ["tcp-est"] "accept"; mkMatch "f" "count" [] "next"; mkMatch "f" "low" [] "deny"],
     [mkMatch "f" "low" [] "deny"]) /\
  make_query (fun _ => Some (host 10 1 0 1)) "10.1.0.1" "any" "any" "22" "tcp" = Ok (mkQuery (Some (host 10 1 0 1)) None None (Some 22) "tcp") /\
  action_match "any" (fst (check_terms q "f" ck_terms)) = [mkMatch "f" "count" [] "next"; mkMatch "f" "low" [] "deny"] /\
  action_match "deny" (fst (check_terms q "f" ck_terms)) = [mkMatch "f" "low" [] "deny"].
Proof.
  assert (V : valid_list [host 10 1 0 1; host 10 3 0 2]) by valid_tac.
  apply Forall_cons_iff in V. destruct V as [V1 V]. apply Forall_cons_iff in V. destruct V as [V2 _].
  split. { repeat (apply Forall_cons || apply Forall_nil); checkable_tac. }
  split. { split; [exists (host 10 1 0 1); split; [reflexivity|]; split; [exact V1|exact (single_covers _ V1 eq_refl)]|].
    split; [exists (host 10 3 0 2); split; [reflexivity|]; split; [exact V2|exact (single_covers _ V2 eq_refl)]|].
    repeat split. discriminate. }
  split; [vm_compute; reflexivity|]. split; [vm_compute; reflexivity|]. split; vm_compute; reflexivity.
Qed.

(** ** C52 Port arguments *)

Theorem C52_port_accepted :
  forall s n, no_ws s -> (port_of_text s = Ok n <-> integer_text s n /\ 0 <= n <= 65535).
Proof. exact port_text_ok. Qed.
Print Assumptions C52_port_accepted.

Theorem C52_port_rejected :
  forall s e, no_ws s -> port_of_text s = Raise e ->
    (e = Exn "BadPortRange" /\ exists n, integer_text s n /\ (n < 0 \/ 65535 < n)) \/
    (e = Exn "BadPortValue" /\ forall n, ~ integer_text s n).
Proof. exact port_text_raise. Qed.
Print Assumptions C52_port_rejected.

Example C52_example :
  port_of_text "65535" = Ok 65535 /\ port_of_text "65536" = Raise (Exn "BadPortRange") /\
  port_of_text "-1" = Raise (Exn "BadPortRange") /\ port_of_text "http" = Raise (Exn "BadPortValue").
Proof. vm_compute. repeat split. Qed.

(** ** C53 Containment of protocol and address lists (an empty list means any) *)

Theorem C53_protocol_containment_exact :
  forall superset subset, check_protocol_is_contained superset subset = true <->
    forall x, any_or subset (eq x) -> any_or superset (eq x).
Proof. exact protocol_contained_spec. Qed.
Print Assumptions C53_protocol_containment_exact.

Theorem C53_address_containment_sound :
  forall superset subset, valid_list superset -> valid_list subset ->
    check_address_is_contained superset subset = true ->
    forall x, (subset = [] \/ covered subset x) -> (superset = [] \/ covered superset x).
Proof. exact address_contained_sound. Qed.
Print Assumptions C53_address_containment_sound.

(** Between non-empty lists it says that every network lies inside one of the others. *)
Theorem C53_address_containment_networkwise :
  forall superset subset, valid_list superset -> valid_list subset -> superset <> [] -> subset <> [] ->
    (check_address_is_contained superset subset = true <->
     forall n, In n subset -> exists m, In m superset /\ forall x, covers n x -> covers m x).
Proof. exact address_contained_single. Qed.
Print Assumptions C53_address_containment_networkwise.

(** It does not see that several networks together contain another one. *)
Theorem C53_address_containment_complete_refuted :
  exists superset subset, valid_list superset /\ valid_list subset /\ superset <> [] /\ subset <> [] /\
    (forall x, covered subset x -> covered superset x) /\ check_address_is_contained superset subset = false.
Proof.
  exists [v4 10 0 0 0 9; v4 10 128 0 0 9], [v4 10 0 0 0 8].
  split; [valid_tac|]. split; [valid_tac|]. split; [discriminate|]. split; [discriminate|].
  split; [|vm_compute; reflexivity]. intros (v & a) (n & [<-|[]] & Hv & Ha). cbn in Hv. subst v.
  cbn in Ha. destruct (Z_lt_le_dec a (10 * 2 ^ 24 + 2 ^ 23)).
  - exists (v4 10 0 0 0 9). split; [left; reflexivity|]. split; [reflexivity|]. cbn. lia.
  - exists (v4 10 128 0 0 9). split; [right; left; reflexivity|]. split; [reflexivity|]. cbn. lia.
Qed.
Print Assumptions C53_address_containment_complete_refuted.

Example C53_example :
  check_protocol_is_contained ["tcp"; "udp"] ["udp"] = true /\ check_protocol_is_contained ["tcp"] [] = false /\
  check_address_is_contained [v4 10 0 0 0 8; v6 db8 32] [v6 db8 48; v4 10 1 0 0 16] = true.
Proof. vm_compute. repeat split. Qed.

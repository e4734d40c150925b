(** Theorems C33, C34, C40 and C59: Juniper firewall filters (juniper.py). *)
From Coq Require Import Lia.
From Verif Require Import SpecJuniper Samples BaseFacts PyStrFacts TextProofs CiscoProofs CiscoTerm CiscoAcl CiscoEst JuniperText JuniperProofs JuniperTerm
  JuniperFilter PropsPolicy.
Local Open Scope string_scope.
Local Open Scope list_scope.
Local Open Scope Z_scope.

(** ** C33: minimised prefix lists *)

(** An address has the same longest-prefix verdict in the minimised lists. *)
Theorem C33_minimize_keeps_verdicts : forall inc exc, valid_list inc -> valid_list exc -> forall x,
  longest (fst (minimize_prefixes inc exc)) (snd (minimize_prefixes inc exc)) x <-> longest inc exc x.
Proof.
  intros inc exc Vi Ve x. pose proof (minimize_longest inc exc x (proj1 (Forall_forall _ _) Vi) (proj1 (Forall_forall _ _) Ve)) as H. destruct (minimize_prefixes inc exc); exact H.
Qed.
Print Assumptions C33_minimize_keeps_verdicts.
(** Nothing is added. *)
Theorem C33_minimize_only_removes : forall inc exc,
  incl (fst (minimize_prefixes inc exc)) inc /\ incl (snd (minimize_prefixes inc exc)) exc.
Proof. intros inc exc. pose proof (minimize_sub inc exc) as H. destruct (minimize_prefixes inc exc) as (i, e). exact H. Qed.
Print Assumptions C33_minimize_only_removes.
Example C33_example : let inc := [v4 10 0 0 0 8; v4 192 168 0 0 16] in let exc := [v4 10 1 0 0 16; v4 172 16 0 0 12; v4 192 168 0 0 16] in
  valid_list inc /\ valid_list exc /\ minimize_prefixes inc exc = ([v4 10 0 0 0 8], [v4 10 1 0 0 16]) /\
  longest inc exc (V4, ten 2 0 1) /\ ~ longest inc exc (V4, ten 1 0 1).
Proof.
  cbv zeta. split; [valid_tac|]. split; [valid_tac|]. split; [vm_compute; reflexivity|]. split.
  - exists (v4 10 0 0 0 8). split; [left; reflexivity|]. split; [vm_compute; intuition congruence|].
    intros e [<-|[<-|[<-|[]]]] H; vm_compute in H; exfalso; intuition congruence.
  - intros (i & [<-|[<-|[]]] & C & L).
    + specialize (L (v4 10 1 0 0 16) (or_introl eq_refl)). assert (X : covers (v4 10 1 0 0 16) (V4, ten 1 0 1)) by (vm_compute; intuition congruence).
      specialize (L X). vm_compute in L. discriminate L.
    + vm_compute in C. intuition congruence.
Qed.

(** ** C34: a term applies to what it says *)

(** The text of a term reads as at most one rule, and that rule gives an outcome exactly to
    the packets the term matches. For terms within what a filter of this kind can express;
    missing for the full claim: the terms of the refutations below, terms that hand over to
    another filter or are written verbatim, and the families bridge and mixed. *)
Theorem C34_term_exact_partial : forall c t inactive ps lines ps' p,
  juniper_term_ok c t -> juniper_traffic c p -> opt_eq (t_restrict_address_family t) (p_family p) -> quiet_comments (term_comments t) ->
  juniper_init (map PName (t_protocol t)) = Ok ps -> juniper_term c t inactive ps = Ok (lines, ps') ->
  exists rules, statements lines = Some rules /\
    forall outcome, (exists s, In s rules /\ term_says (j_ver c) p s outcome) <->
      inactive = false /\ term_matches t p /\ exists a, t_action t = [a] /\ juniper_verdict a = Some outcome.
Proof.
  intros c t inactive ps lines ps' p K Tr R Q I H. destruct (term_exact c t inactive ps lines ps' p K Tr R Q I H) as (st & S1 & S2 & S3).
  exists st. split; [|exact S3]. unfold statements. change (text_of lines) with (cat lines ""). rewrite S1, read_stmts by exact S2.
  cbn [tokens flush is_empty read]. rewrite app_nil_r, rev_involutive. reflexivity.
Qed.
Print Assumptions C34_term_exact_partial.
(** A whole filter: its text reads as one filter of the family and name asked for, which
    decides every packet as the first matching term of the policy does. *)
Theorem C34_filter_exact_partial : forall c today name comments specific enhanced terms lines p,
  filter_family (jc_type c) ->
  Forall (juniper_listed_ok c today) terms ->
  plain_word name -> quiet_comments comments -> juniper_traffic c p ->
  juniper_filter c today name comments specific enhanced terms = Ok lines ->
  exists rules, statements lines = Some [Block ["firewall"] [Block ["family"; jc_type c] [Block ["replace:"; "filter"; name] rules]]] /\
    forall outcome, filter_decides (j_ver c) rules p outcome <-> first_says (juniper_rule today p) terms outcome.
Proof. exact juniper_filter_decides. Qed.
Print Assumptions C34_filter_exact_partial.

Definition junos : juniper_cfg := mkJuniper "inet" false false.
Definition junos6 : juniper_cfg := mkJuniper "inet6" false false.
Definition jpkt (v : ver) (src dst : Z) (proto : string) (sport dport : Z) : packet :=
  mkPacket (v, src) (v, dst) proto sport dport "echo-request" 0 (fun o => o = "sample")
    (fun _ => False) (fun _ => False) (fun _ => False) (fun _ => False)
    "0" "" 0 64 100 64 "" "" "" "" "" "" "" (match v with V4 => "inet" | V6 => "inet6" end) "juniper".
Definition jweb : term :=
  set_protocol ["tcp"; "udp"] (set_destination_port [(80, 80); (443, 444)]
    (set_source_address [v4t 10 0 0 0 8 "office" "" ""; v4 192 168 0 0 16] (set_source_address_exclude [v4 10 1 0 0 16]
      (set_comment ["allow web"] (set_owner (Some "net-team") (set_logging ["true"] (accept "web"))))))).
Definition jold : term := set_expiration (Some 100) (set_action ["deny"] (blank "old")).
Definition jdeny : term := set_action ["deny"] (blank "rest").
Ltac word_tac := split; [discriminate|reflexivity].
Lemma jdeny_ok : juniper_term_ok junos jdeny.
Proof.
  constructor; try (unfold filter_family; cbn; auto; fail).
  - unfold only_juniper_conditions; cbn; repeat split.
  - word_tac.
  - eexists; split; [reflexivity|cbn; auto].
  - repeat split; discriminate.
  - valid_tac.
  - split; [valid_tac|split; [valid_tac|split; [auto|intros i e x []]]].
  - split; [valid_tac|split; [valid_tac|split; [auto|intros i e x []]]].
  - intros q [].
  - intros r [].
  - intros o [].
  - cbn. intros [(o & [] & _)|[X|[X|X]]]; [discriminate X|destruct (X eq_refl)..].
  - intros n [].
  - discriminate.
  - discriminate.
  - intros s [].
  - repeat split; discriminate.
Qed.
Lemma jweb_ok : juniper_term_ok junos jweb.
Proof.
  constructor; try (unfold filter_family; cbn; auto; fail).
  - unfold only_juniper_conditions; cbn; repeat split.
  - word_tac.
  - eexists; split; [reflexivity|cbn; auto].
  - repeat split; discriminate.
  - valid_tac.
  - split; [valid_tac|split; [valid_tac|split; [discriminate|]]].
    intros i e x [<-|[<-|[]]] [<-|[]] L C; vm_compute in L; discriminate L.
  - split; [valid_tac|split; [valid_tac|split; [auto|intros i e x []]]].
  - intros q [<-|[<-|[]]]; (split; [cbn; auto 40|discriminate]).
  - intros r [<-|[<-|[]]]; cbn; lia.
  - intros o [].
  - intros _. left. discriminate.
  - intros n [].
  - discriminate.
  - discriminate.
  - intros s [].
  - repeat split; discriminate.
Qed.
Lemma jpkt_traffic src dst proto sport dport : 0 <= src < 2 ^ 32 -> 0 <= dst < 2 ^ 32 -> proto <> "icmpv6" -> juniper_traffic junos (jpkt V4 src dst proto sport dport).
Proof.
  intros A B C. unfold juniper_traffic, jpkt; cbn. repeat match goal with |- _ /\ _ => split end; try reflexivity; try lia; try exact C; try apply A; try apply B;
    split; intros X; discriminate X.
Qed.
Example C34_example :
  Forall (juniper_listed_ok junos 100) [jold; jweb; jdeny] /\
  plain_word "edge" /\ quiet_comments ["edge filter"] /\ juniper_traffic junos (jpkt V4 (ten 2 0 1) 5 "tcp" 3000 80) /\
  juniper_filter junos 100 "edge" ["edge filter"] true false [jold; jweb; jdeny] = Ok
    ["firewall {"; "    family inet {"; "        /*"; "         ** $Id:$"; "         ** $Date:$"; "         ** $Revision:$"; "         **";
     "         ** edge filter"; "         */"; "        replace: filter edge {"; "            interface-specific;";
     "            /*"; "             ** allow web"; "             ** Owner: net-team"; "             */";
     "            term web {"; "                from {"; "                    source-address {";
     "                        /* office */"; "                        10.0.0.0/8;"; "                        192.168.0.0/16;"; "                        10.1.0.0/16 except;"; "                    }";
     "                    destination-port [ 80 443-444 ];"; "                    protocol [ tcp udp ];"; "                }";
     "                then {"; "                    syslog;"; "                    accept;"; "                }"; "            }";
     "            term rest {"; "                then {"; "                    discard;"; "                }"; "            }";
     "        }"; "    }"; "}"].
Proof.
  split.
  { assert (Q : forall l, forallb (fun cm => forallb (fun x => negb (substring_of "*/" x)) (split_char newline cm)) l = true -> quiet_comments l).
    { intros l H cm x I J. rewrite forallb_forall in H. specialize (H cm I). rewrite forallb_forall in H. specialize (H x J).
      apply negb_true_iff in H. exact (quiet_b _ H). }
    constructor; [|constructor; [|constructor; [|constructor]]].
    - intros H. specialize (H 100 eq_refl). lia.
    - intros _. split; [discriminate|]. intros _. split; [assert (E : unmarked jweb = jweb) by (vm_compute; reflexivity); rewrite E; exact jweb_ok|apply Q; vm_compute; reflexivity].
    - intros _. split; [discriminate|]. intros _. split; [assert (E : unmarked jdeny = jdeny) by (vm_compute; reflexivity); rewrite E; exact jdeny_ok|apply Q; vm_compute; reflexivity]. }
  split; [word_tac|]. split.
  { intros cm x [<-|[]] J. cbn in J. destruct J as [<-|[]]. apply quiet_b. reflexivity. }
  split; [apply jpkt_traffic; vm_compute; intuition congruence|]. vm_compute. reflexivity.
Qed.

(** The text of the term gives an outcome to a packet the term does not match. *)
Definition overmatches (c : juniper_cfg) (t : term) (p : packet) : Prop :=
  exists ps lines ps' rules, juniper_init (map PName (t_protocol t)) = Ok ps /\ juniper_term c t false ps = Ok (lines, ps') /\
    statements lines = Some rules /\ (exists s, In s rules /\ term_says (j_ver c) p s "accept") /\ ~ term_matches t p.
Ltac over := eexists; eexists; eexists; eexists; split; [vm_compute; reflexivity|]; split; [vm_compute; reflexivity|];
  split; [vm_compute; reflexivity|]; split; [eexists; split; [left; reflexivity|]; cbn [term_says j_ver jc_type junos junos6 String.eqb Ascii.eqb Bool.eqb];
    split; [reflexivity|]; split; [intros conds s I J|eexists; split; [left; split; reflexivity|]; cbn; tauto]|].
Ltac no_from := exfalso; cbn in *; intuition congruence.

(** An option alone is dropped with the whole from clause. *)
Theorem C34_option_alone_refuted : exists t p, juniper_traffic junos p /\ overmatches junos t p.
Proof.
  exists (set_option ["is-fragment"] (accept "t")), (jpkt V4 1 2 "tcp" 1 2).
  split; [apply jpkt_traffic; vm_compute; intuition congruence|]. over; [no_from|].
  intros (_ & _ & _ & _ & (_ & O & _) & _). specialize (O "is-fragment" (or_introl eq_refl)). discriminate O.
Qed.
Print Assumptions C34_option_alone_refuted.
(** So is a packet length alone. *)
Theorem C34_packet_length_alone_refuted : exists t p, juniper_traffic junos p /\ overmatches junos t p.
Proof.
  exists (set_packet_length (Some "50") (accept "t")), (jpkt V4 1 2 "tcp" 1 2).
  split; [apply jpkt_traffic; vm_compute; intuition congruence|]. over; [no_from|].
  intros (_ & _ & _ & _ & _ & (_ & _ & X & _) & _). destruct X as [X|[X|(lo & hi & (a & b & E & _) & _)]]; [discriminate X|vm_compute in X; discriminate X|].
  destruct a as [|x [|y a]]; [discriminate E|discriminate E|]. injection E as _ _ E. destruct a; discriminate E.
Qed.
Print Assumptions C34_packet_length_alone_refuted.
(** An exclusion without an inclusion is dropped. *)
Theorem C34_exclusion_alone_refuted : exists t p, juniper_traffic junos p /\ overmatches junos t p.
Proof.
  exists (set_source_address_exclude [v4 10 0 0 0 8] (accept "t")), (jpkt V4 (ten 0 0 1) 2 "tcp" 1 2).
  split; [apply jpkt_traffic; vm_compute; intuition congruence|]. over; [no_from|].
  intros ((_ & (_ & N) & _) & _). apply N. exists (v4 10 0 0 0 8). split; [left; reflexivity|]. split; [reflexivity|vm_compute; split; [discriminate|reflexivity]].
Qed.
Print Assumptions C34_exclusion_alone_refuted.
(** A prefix inside an excluded one is matched, although every address of it is excluded. *)
Theorem C34_nested_exclusion_refuted : exists t p, juniper_traffic junos p /\ overmatches junos t p.
Proof.
  exists (set_source_address [v4 10 1 1 0 24] (set_source_address_exclude [v4 10 1 0 0 16] (accept "t"))), (jpkt V4 (ten 1 1 1) 2 "tcp" 1 2).
  split; [apply jpkt_traffic; vm_compute; intuition congruence|]. over.
  - cbn in I. destruct I as [I|I]; [|exfalso; intuition congruence]. injection I as <-. cbn in J. destruct J as [<-|[]].
    apply (proj2 (longest_match_iff V4 [v4 10 1 1 0 24] [] (ten 1 1 1) ltac:(intros n [<-|[]]; split; [|reflexivity]; assert (V : valid_list [v4 10 1 1 0 24]) by valid_tac; exact (Forall_inv V))
      ltac:(intros n []) ltac:(vm_compute; intuition congruence))).
    exists (v4 10 1 1 0 24). split; [left; reflexivity|]. split; [vm_compute; intuition congruence|intros e []].
  - intros ((_ & (_ & N) & _) & _). apply N. exists (v4 10 1 0 0 16). split; [left; reflexivity|]. split; [reflexivity|vm_compute; split; [discriminate|reflexivity]].
Qed.
Print Assumptions C34_nested_exclusion_refuted.
(** With another protocol beside tcp the option established is dropped. *)
Theorem C34_established_refuted : exists t p, juniper_traffic junos p /\ overmatches junos t p.
Proof.
  exists (set_protocol ["tcp"; "udp"] (set_option ["established"] (accept "t"))), (jpkt V4 1 2 "tcp" 1 2000).
  split; [apply jpkt_traffic; vm_compute; intuition congruence|]. over.
  - cbn in I. destruct I as [I|I]; [|exfalso; intuition congruence]. injection I as <-. cbn in J. destruct J as [<-|[]].
    exists "tcp". split; [left; reflexivity|reflexivity].
  - intros (_ & _ & _ & _ & (_ & O & _) & _). specialize (O "established" (or_introl eq_refl)). discriminate O.
Qed.
Print Assumptions C34_established_refuted.
(** A time to live is dropped from a filter for IPv6. *)
Theorem C34_ttl_refuted : exists t p, juniper_traffic junos6 p /\ overmatches junos6 t p.
Proof.
  exists (set_protocol ["tcp"] (set_ttl (Some 1) (accept "t"))), (jpkt V6 1 2 "tcp" 1 2000).
  split.
  { unfold juniper_traffic, jpkt; cbn. repeat match goal with |- _ /\ _ => split end; try reflexivity; try lia; try discriminate; split; discriminate. }
  over.
  - cbn in I. destruct I as [I|I]; [|exfalso; intuition congruence]. injection I as <-. cbn in J. destruct J as [<-|[]].
    exists "tcp". split; [left; reflexivity|reflexivity].
  - intros (_ & _ & _ & _ & _ & (_ & _ & _ & X) & _). discriminate X.
Qed.
Print Assumptions C34_ttl_refuted.
(** A term for ICMPv6 alone, in a filter for both families, loses its protocol when it is
    rendered for IPv4: its IPv6 rendering accepts everything. *)
Theorem C34_mixed_icmpv6_refuted : exists t lines4 lines6 rules p,
  juniper_mixed_term false false t = Ok (lines4, lines6) /\ statements lines6 = Some rules /\
  juniper_traffic junos6 p /\ (exists s, In s rules /\ term_says V6 p s "accept") /\ ~ term_matches t p.
Proof.
  exists (set_protocol ["icmpv6"] (accept "t")). eexists. eexists. eexists. exists (jpkt V6 1 2 "tcp" 1 22).
  split; [vm_compute; reflexivity|]. split; [vm_compute; reflexivity|]. split.
  { unfold juniper_traffic, jpkt; cbn. repeat match goal with |- _ /\ _ => split end; try reflexivity; try lia; try discriminate; split; discriminate. }
  split.
  - eexists. split; [left; reflexivity|]. split; [reflexivity|]. split; [intros conds s I J; no_from|]. eexists; split; [left; split; reflexivity|]. cbn; tauto.
  - intros (_ & (B & _) & _). destruct B as [B|(q & [<-|[]] & B)]; discriminate B.
Qed.
Print Assumptions C34_mixed_icmpv6_refuted.

(** ** C40: expired terms *)

Theorem C40_juniper_expired_not_rendered : forall c today name comments specific enhanced terms lines,
  juniper_filter c today name comments specific enhanced terms = Ok lines ->
  juniper_filter c today name comments specific enhanced (filter (valid_on today) terms) = Ok lines.
Proof. intros. rewrite filter_valid. apply juniper_filter_expired. assumption. Qed.
Print Assumptions C40_juniper_expired_not_rendered.
Example C40_juniper_example : expired 100 jold = true /\ expired 99 jold = false /\
  juniper_select junos 100 [] [jold; jdeny] = Ok [(jdeny, false)] /\ juniper_select junos 99 [] [jold; jdeny] = Ok [(jold, false); (jdeny, false)].
Proof. vm_compute. auto. Qed.

(** ** C59: comments *)

(** Terms that differ in their comments and owner read as the same configuration, if no
    line of a comment contains the sign that ends one. *)
Theorem C59_comments_inert_partial : forall c t comments owner inactive ps lines lines' ps' ps'',
  quiet_comments (term_comments t) -> quiet_comments (term_comments (set_comment comments (set_owner owner t))) ->
  juniper_term c t inactive ps = Ok (lines, ps') -> juniper_term c (set_comment comments (set_owner owner t)) inactive ps = Ok (lines', ps'') ->
  statements lines = statements lines'.
Proof. exact juniper_comments_inert. Qed.
Print Assumptions C59_comments_inert_partial.
Example C59_example : let t := set_comment ["allow web; accept }"] (accept "t") in let t' := set_comment ["other"; "text"] (set_owner (Some "me") t) in
  quiet_comments (term_comments t) /\ quiet_comments (term_comments t') /\
  exists lines lines' rules, juniper_term junos t false [] = Raise (Exn "JuniperIndentationError") /\
    juniper_term junos (set_comment ["allow {web} ;"] t) false [] = Ok (lines, []) /\ juniper_term junos t' false [] = Ok (lines', []) /\
    lines <> lines' /\ statements lines = Some rules /\ rules <> [].
Proof.
  assert (Q : forall l, forallb (fun cm => forallb (fun x => negb (substring_of "*/" x)) (split_char newline cm)) l = true -> quiet_comments l).
  { intros l H cm x I J. rewrite forallb_forall in H. specialize (H cm I). rewrite forallb_forall in H. specialize (H x J).
    apply negb_true_iff in H. exact (quiet_b _ H). }
  cbv zeta. split; [apply Q; vm_compute; reflexivity|]. split; [apply Q; vm_compute; reflexivity|].
  eexists; eexists; eexists. split; [vm_compute; reflexivity|]. split; [vm_compute; reflexivity|]. split; [vm_compute; reflexivity|].
  split; [discriminate|]. split; [vm_compute; reflexivity|discriminate].
Qed.
(** A comment that ends early puts its own statements into the configuration: here a term
    that accepts everything, before the term that denies. *)
Theorem C59_comment_injects_refuted : exists t lines ps rules p,
  t_action t = ["deny"] /\ juniper_term junos t false [] = Ok (lines, ps) /\ statements lines = Some rules /\
  juniper_traffic junos p /\ filter_decides V4 rules p "accept".
Proof.
  exists (set_comment ["see */ term x { then accept; } /* end"] (set_action ["deny"] (blank "t"))).
  eexists. eexists. eexists. exists (jpkt V4 1 2 "tcp" 1 22).
  split; [reflexivity|]. split; [vm_compute; reflexivity|]. split; [vm_compute; reflexivity|].
  split; [apply jpkt_traffic; vm_compute; intuition congruence|].
  eexists []. eexists. eexists. split; [reflexivity|]. split; [|intros y a []].
  split; [reflexivity|]. split; [intros conds s I J; no_from|]. eexists; split; [left; split; reflexivity|]. cbn; tauto.
Qed.
Print Assumptions C59_comment_injects_refuted.

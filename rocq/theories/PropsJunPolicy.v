(** C88: a whole Juniper configuration. *)
From Coq Require Import Lia ZifyBool ZifyNat.
From Verif Require Import Samples BaseFacts CiscoProofs CiscoTerm JuniperText JuniperFilter PropsPolicy PropsJuniper SpecJunPolicy JunPolicy.
Local Open Scope string_scope.
Local Open Scope list_scope.
Local Open Scope Z_scope.

(** The configuration has exactly the filters the headers ask for, two for a header of type mixed; each decides
    the packets of its family as the terms of its header do, taken in order. *)
Theorem C88_configuration_decides_partial : forall today fs lines,
  jun_policy_ok today fs -> jun_text today fs = Ok lines ->
  exists conf, statements lines = Some conf /\
    (forall fam name terms, In (fam, name, terms) (jun_wanted fs) ->
       exists rules, has_filter conf fam name rules /\
         (jun_names_differ fs -> forall other, has_filter conf fam name other -> other = rules) /\
         forall p, juniper_traffic (mkJuniper fam false false) p -> forall o,
           filter_decides (j_ver (mkJuniper fam false false)) rules p o <-> first_says (juniper_rule today p) terms o) /\
    (forall fam name rules, has_filter conf fam name rules -> exists terms, In (fam, name, terms) (jun_wanted fs)).
Proof. exact policy_decides. Qed.
Print Assumptions C88_configuration_decides_partial.

(** ** A policy it applies to *)

Definition jping : term := Eval vm_compute in set_restrict_address_family (Some "inet6") (set_protocol ["icmpv6"] (accept "ping")).
Definition joff : term := Eval vm_compute in set_option ["inactive"] (set_protocol ["udp"] (accept "off")).
Definition jest : term := Eval vm_compute in set_option ["tcp-established"] (set_protocol ["tcp"] (accept "back")).
Definition jmixed : list (asa_header * list term) :=
  [((Some ["edge"; "not-interface-specific"; "mixed"], ["Edge."]), [jold; jweb; jping; joff; jdeny]);
   ((None, []), [jdeny]);
   ((Some ["lo"; "inet6"; "noverbose"; "filter_enhanced_mode"], []), [jping; jdeny]);
   ((Some ["br"; "bridge"; "not-interface-specific"], []), [jest; jweb; jdeny])].
Ltac jun_term_tac :=
  constructor; [assumption|reflexivity|unfold only_juniper_conditions; cbn; repeat split|word_tac|eexists; split; [reflexivity|cbn; auto]|repeat split; discriminate|valid_tac
    |split; [valid_tac|split; [valid_tac|split; [first [intros _; reflexivity|discriminate]|first [solve [intros i e x []]|intros i e x [<-|[<-|[]]] [<-|[]] L C; vm_compute in L; discriminate L]]]]
    |split; [valid_tac|split; [valid_tac|split; [auto|intros i e x []]]]
    |first [solve [intros q []]|solve [intros q [<-|[]]; (split; [cbn; auto 40|discriminate])]|intros q [<-|[<-|[]]]; (split; [cbn; auto 40|discriminate])]
    |first [solve [intros r []]|intros r [<-|[<-|[]]]; cbn; lia]|first [solve [intros o []]|intros o [<-|[]]; right; left; split; [right; left; reflexivity|reflexivity]]
    |first [intros _; left; discriminate|cbn; intros [(o & [] & _)|[X|[X|X]]]; [discriminate X|destruct (X eq_refl)..]]
    |intros n []|discriminate|discriminate|intros s []|repeat split; discriminate].
Lemma jun_terms_ok fam : filter_family fam -> Forall (juniper_listed_ok (mkJuniper fam false false) 100) [jold; jweb; jping; joff; jest; jdeny].
Proof.
  intros F.
  assert (Q : forall l, forallb (fun cm => forallb (fun x => negb (substring_of "*/" x)) (split_char newline cm)) l = true -> quiet_comments l).
  { intros l H cm x I J. rewrite forallb_forall in H. specialize (H cm I). rewrite forallb_forall in H. specialize (H x J).
    apply negb_true_iff in H. exact (quiet_b _ H). }
  assert (U : forall t, t = jweb \/ t = jping \/ t = joff \/ t = jest \/ t = jdeny -> juniper_term_ok (mkJuniper fam false false) (unmarked t)).
  { intros t [->|[->|[->|[->| ->]]]].
    - assert (E : unmarked jweb = jweb) by (vm_compute; reflexivity). rewrite E. jun_term_tac.
    - assert (E : unmarked jping = jping) by (vm_compute; reflexivity). rewrite E. jun_term_tac.
    - assert (E : unmarked joff = set_option [] joff) by (vm_compute; reflexivity). rewrite E. jun_term_tac.
    - assert (E : unmarked jest = jest) by (vm_compute; reflexivity). rewrite E. jun_term_tac.
    - assert (E : unmarked jdeny = jdeny) by (vm_compute; reflexivity). rewrite E. jun_term_tac. }
  constructor; [intros H; specialize (H 100 eq_refl); lia|].
  repeat match goal with |- Forall _ (_ :: _) => constructor; [intros _; split; [discriminate|]; intros _; split; [apply U; tauto|apply Q; vm_compute; reflexivity]|] end.
  constructor.
Qed.
Lemma jmixed_ok : jun_policy_ok 100 jmixed.
Proof.
  intros f all [<-|[<-|[<-|[<-|[]]]]] E; cbn [fst] in E; [injection E as <-|discriminate E|injection E as <-|injection E as <-]; eexists; eexists; (split; [reflexivity|]).
  - constructor.
    + word_tac.
    + split; [repeat constructor; cbn; intuition discriminate|cbn; intuition discriminate].
    + cbn; intuition discriminate.
    + vm_compute. auto.
    + intros cm x [<-|[]] J. cbn in J. destruct J as [<-|[]]. apply quiet_b. reflexivity.
    + intros fam I. vm_compute in I. assert (F : filter_family fam) by (destruct I as [<-|[<-|[]]]; unfold filter_family; auto). apply jun_terms_ok in F.
      apply Forall_forall. rewrite Forall_forall in F. intros t J. apply F. cbn in J |- *. tauto.
    + intros _ t I. cbn [snd In] in I. repeat (destruct I as [<-|I]; [vm_compute; intuition discriminate|]). destruct I.
  - constructor.
    + word_tac.
    + split; [repeat constructor; cbn; intuition discriminate|cbn; intuition discriminate].
    + cbn; intuition discriminate.
    + vm_compute. auto.
    + intros cm x [].
    + intros fam I. vm_compute in I. destruct I as [<-|[]]. pose proof (jun_terms_ok "inet6" (or_intror (or_introl eq_refl))) as F.
      apply Forall_forall. rewrite Forall_forall in F. intros t I. apply F. cbn in I |- *. tauto.
    + intros X. vm_compute in X. discriminate X.
  - constructor.
    + word_tac.
    + split; [repeat constructor; cbn; intuition discriminate|cbn; intuition discriminate].
    + cbn; intuition discriminate.
    + vm_compute. auto.
    + intros cm x [].
    + intros fam I. vm_compute in I. destruct I as [<-|[]]. pose proof (jun_terms_ok "bridge" (or_intror (or_intror eq_refl))) as F.
      apply Forall_forall. rewrite Forall_forall in F. intros t I. apply F. cbn in I |- *. tauto.
    + intros X. vm_compute in X. discriminate X.
Qed.
Example C88_example : jun_policy_ok 100 jmixed /\ jun_names_differ jmixed /\
  map fst (jun_wanted jmixed) = [("inet", "edge4"); ("inet6", "edge6"); ("inet6", "lo"); ("bridge", "br")] /\
  jun_text 100 jmixed = Ok
    ["firewall {"; "    family inet {"; "        /*"; "         ** $Id:$"; "         ** $Date:$"; "         ** $Revision:$"; "         **";
     "         ** Edge."; "         */"; "        replace: filter edge4 {"; "            /*"; "             ** allow web";
     "             ** Owner: net-team"; "             */"; "            term web {"; "                from {";
     "                    source-address {"; "                        /* office */"; "                        10.0.0.0/8;";
     "                        192.168.0.0/16;"; "                        10.1.0.0/16 except;"; "                    }";
     "                    destination-port [ 80 443-444 ];"; "                    protocol [ tcp udp ];"; "                }";
     "                then {"; "                    syslog;"; "                    accept;"; "                }"; "            }";
     "            inactive: term off {"; "                from {"; "                    protocol udp;"; "                }";
     "                then accept;"; "            }"; "            term rest {"; "                then {"; "                    discard;";
     "                }"; "            }"; "        }"; "    }"; "}"; "firewall {"; "    family inet6 {"; "        /*"; "         ** $Id:$";
     "         ** $Date:$"; "         ** $Revision:$"; "         **"; "         ** Edge."; "         */"; "        replace: filter edge6 {";
     "            term ping {"; "                from {"; "                    next-header icmp6;"; "                }";
     "                then accept;"; "            }"; "            inactive: term off {"; "                from {";
     "                    next-header udp;"; "                }"; "                then accept;"; "            }"; "            term rest {";
     "                then discard;"; "            }"; "        }"; "    }"; "}"; "firewall {"; "    family inet6 {"; "        /*";
     "         ** $Id:$"; "         ** $Date:$"; "         ** $Revision:$"; "         **"; "         */"; "        replace: filter lo {";
     "            interface-specific;"; "            enhanced-mode;"; "            term ping {"; "                from {";
     "                    next-header icmp6;"; "                }"; "                then accept;"; "            }"; "            term rest {";
     "                then discard;"; "            }"; "        }"; "    }"; "}"; "firewall {"; "    family bridge {"; "        /*";
     "         ** $Id:$"; "         ** $Date:$"; "         ** $Revision:$"; "         **"; "         */"; "        replace: filter br {";
     "            term back {"; "                from {"; "                    tcp-flags ""(ack|rst)"";"; "                    ip-protocol tcp;";
     "                }"; "                then accept;"; "            }"; "            /*"; "             ** allow web";
     "             ** Owner: net-team"; "             */"; "            term web {"; "                from {";
     "                    ip-source-address {"; "                        /* office */"; "                        10.0.0.0/8;";
     "                        192.168.0.0/16;"; "                        10.1.0.0/16 except;"; "                    }";
     "                    destination-port [ 80 443-444 ];"; "                    ip-protocol [ tcp udp ];"; "                }";
     "                then {"; "                    syslog;"; "                    accept;"; "                }"; "            }";
     "            term rest {"; "                then discard;"; "            }"; "        }"; "    }"; "}"].
Proof.
  split; [exact jmixed_ok|]. split; [repeat constructor; cbn; intuition discriminate|]. split; [reflexivity|]. vm_compute. reflexivity.
Qed.

(** ** Where the configuration says something else *)

(** A policy whose configuration gives a packet an outcome that the terms do not. *)
Definition jun_wrong (fs : list (asa_header * list term)) (fam name : string) (p : packet) : Prop :=
  exists lines conf rules o terms, jun_text 100 fs = Ok lines /\ statements lines = Some conf /\ has_filter conf fam name rules /\
    In (fam, name, terms) (jun_wanted fs) /\ juniper_traffic (mkJuniper fam false false) p /\
    filter_decides (j_ver (mkJuniper fam false false)) rules p o /\ ~ first_says (juniper_rule 100 p) terms o.
Lemma block_has conf fam name rules : In (Block ["firewall"] [Block ["family"; fam] [Block ["replace:"; "filter"; name] rules]]) conf -> has_filter conf fam name rules.
Proof. intros I. eexists; eexists. split; [exact I|]. split; [left; reflexivity|left; reflexivity]. Qed.
Lemma jpkt6_traffic src dst proto sport dport : 0 <= src < 2 ^ 128 -> 0 <= dst < 2 ^ 128 -> proto <> "icmp" -> juniper_traffic junos6 (jpkt V6 src dst proto sport dport).
Proof.
  intros A B C. unfold juniper_traffic, jpkt; cbn. repeat match goal with |- _ /\ _ => split end; try reflexivity; try lia; try exact C; try apply A; try apply B;
    split; intros X; discriminate X.
Qed.
(** In a mixed header a term for icmpv6 alone becomes a term for everything: the IPv4 filter takes the only
    protocol away, and the IPv6 filter is left with none. *)
Definition jopen : list (asa_header * list term) := [((Some ["edge"; "mixed"], []), [set_protocol ["icmpv6"] (accept "ping"); jdeny])].
Theorem C88_mixed_icmpv6_opens_refuted : exists p, p_proto p = "tcp" /\ jun_wrong jopen "inet6" "edge6" p.
Proof.
  exists (jpkt V6 1 2 "tcp" 1 2). split; [reflexivity|].
  eexists; eexists; eexists; exists "accept"; eexists. split; [vm_compute; reflexivity|]. split; [vm_compute; reflexivity|].
  split; [apply block_has; right; left; reflexivity|]. split; [right; left; reflexivity|].
  split; [apply jpkt6_traffic; vm_compute; intuition congruence|]. split.
  - exists [Leaf ["interface-specific"]]. eexists; eexists. split; [reflexivity|]. split.
    + cbn [term_says j_ver jc_type String.eqb Ascii.eqb Bool.eqb]. split; [reflexivity|]. split; [intros conds s I J; no_from|].
      eexists; split; [left; split; reflexivity|]; cbn; tauto.
    + intros y a [<-|[]] [].
  - intros (b & x & a & E & (_ & _ & M & w & A & V) & _). destruct b as [|b1 [|b2 [|b3 b]]]; [injection E as <- _|injection E as _ <- _|discriminate E|discriminate E].
    + destruct M as (_ & M). specialize (M ltac:(intros (o & [] & _))). destruct M as (_ & (M & _) & _). destruct M as [M|M]; [discriminate M|]. destruct M as (q & [<-|[]] & M). discriminate M.
    + cbn in A. injection A as <-. discriminate V.
Qed.
Print Assumptions C88_mixed_icmpv6_opens_refuted.
(** Beside another protocol icmpv6 is lost from the IPv6 filter. *)
Definition jlost : list (asa_header * list term) := [((Some ["edge"; "mixed"], []), [set_protocol ["tcp"; "icmpv6"] (accept "ping"); jdeny])].
Theorem C88_mixed_icmpv6_lost_refuted : exists p, p_proto p = "icmpv6" /\ jun_wrong jlost "inet6" "edge6" p.
Proof.
  exists (jpkt V6 1 2 "icmpv6" 1 2). split; [reflexivity|].
  eexists; eexists; eexists; exists "discard"; eexists. split; [vm_compute; reflexivity|]. split; [vm_compute; reflexivity|].
  split; [apply block_has; right; left; reflexivity|]. split; [right; left; reflexivity|].
  split; [apply jpkt6_traffic; vm_compute; intuition congruence|]. split.
  - match goal with |- filter_decides _ [?a; ?b; ?c] _ _ => exists [a; b], c, [] end. split; [reflexivity|]. split.
    + cbn [term_says j_ver jc_type String.eqb Ascii.eqb Bool.eqb]. split; [reflexivity|]. split; [intros conds s I J; no_from|].
      exists ["discard"]. split; [right; left; split; reflexivity|left; left; reflexivity].
    + intros y a [<-|[<-|[]]]; [intros []|]. cbn [term_says j_ver jc_type String.eqb Ascii.eqb Bool.eqb]. intros (_ & C & _). exfalso.
      specialize (C _ _ (or_introl eq_refl) (or_introl eq_refl)). vm_compute in C. destruct C as (w & [<-|[]] & C). discriminate C.
  - intros (b & x & a & E & (_ & _ & M & w & A & V) & N). destruct b as [|b1 [|b2 [|b3 b]]]; [injection E as <- _|injection E as <- <- _|discriminate E|discriminate E].
    + cbn in A. injection A as <-. discriminate V.
    + assert (X : "accept" = "discard"); [|discriminate X]. apply (N _ _ (or_introl eq_refl)). split; [discriminate|]. split; [intros []|]. split; [|exists "accept"; split; reflexivity].
      split; [intros (o & [] & _)|intros _]. easy_match. right. exists "icmpv6". split; [right; left; reflexivity|reflexivity].
Qed.
Print Assumptions C88_mixed_icmpv6_lost_refuted.
(** A mixed header with the protocol hopopt is refused: the first pass writes the protocol as the device
    does, and the second does not know that word.  Each family alone is rendered. *)
Theorem C88_mixed_hopopt_refused : forall kind, In kind ["inet"; "inet6"; "mixed"] ->
  match jun_text 100 [((Some ["edge"; kind], []), [set_protocol ["hopopt"] (accept "t")])] with
  | Ok _ => kind <> "mixed"
  | Raise e => kind = "mixed" /\ e = Exn "UnsupportedFilterError"
  end.
Proof. intros kind [<-|[<-|[<-|[]]]]; vm_compute; [discriminate|discriminate|split; reflexivity]. Qed.
Print Assumptions C88_mixed_hopopt_refused.
(** The option noverbose in front of the type is taken for the type. *)
Theorem C88_noverbose_first_refused : forall kind, In kind ["inet"; "inet6"; "mixed"] ->
  (exists lines, jun_text 100 [((Some ["edge"; kind; "noverbose"], []), [jdeny])] = Ok lines) /\
  exists e, jun_text 100 [((Some ["edge"; "noverbose"; kind], []), [jdeny])] = Raise e.
Proof. intros kind [<-|[<-|[<-|[]]]]; (split; eexists; vm_compute; reflexivity). Qed.
Print Assumptions C88_noverbose_first_refused.
(** The name of a filter of a mixed header can be that of another header: one name, two lists of rules. *)
Theorem C88_names_clash_refuted : exists fs lines conf fam name a b, jun_policy_ok 100 fs /\ jun_text 100 fs = Ok lines /\ statements lines = Some conf /\
  has_filter conf fam name a /\ has_filter conf fam name b /\ a <> b.
Proof.
  exists [((Some ["edge"; "mixed"], []), [jdeny]); ((Some ["edge4"; "inet"], []), [joff])]. eexists; eexists; exists "inet", "edge4"; eexists; eexists.
  split; [|split; [vm_compute; reflexivity|]; split; [vm_compute; reflexivity|]; split; [apply block_has; left; reflexivity|]; split; [apply block_has; right; right; left; reflexivity|discriminate]].
  intros f all [<-|[<-|[]]] E; cbn [fst] in E; injection E as <-; eexists; eexists; (split; [reflexivity|]); constructor;
    [word_tac|split; [repeat constructor; cbn; intuition discriminate|cbn; intuition discriminate]|cbn; intuition discriminate|vm_compute; auto|intros cm x []| |
     |word_tac|split; [repeat constructor; cbn; intuition discriminate|cbn; intuition discriminate]|cbn; intuition discriminate|vm_compute; auto|intros cm x []| |].
  - intros fam I. pose proof (jun_terms_ok fam) as F. vm_compute in I. apply Forall_forall. intros t J. rewrite Forall_forall in F. apply F; [unfold filter_family; destruct I as [<-|[<-|[]]]; auto|cbn in J |- *; tauto].
  - intros _ t [<-|[]]. vm_compute. intuition discriminate.
  - intros fam I. pose proof (jun_terms_ok fam) as F. vm_compute in I. apply Forall_forall. intros t J. rewrite Forall_forall in F. apply F; [unfold filter_family; destruct I as [<-|[]]; auto|cbn in J |- *; tauto].
  - intros X. vm_compute in X. discriminate X.
Qed.
Print Assumptions C88_names_clash_refuted.

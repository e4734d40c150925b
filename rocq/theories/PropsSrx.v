(** Theorems C84: Juniper SRX security policies (junipersrx.py), and C40 for them. *)
From Coq Require Import Lia ZifyBool ZifyNat.
From Verif Require Import SpecSrx SpecCisco Samples BaseFacts PyStrFacts TextProofs CiscoProofs CiscoEst QuietTerm JuniperText JuniperProofs SrxRead SrxWhole SrxDecide SrxLarge.
From Verif Require Import PropsPolicy.
From Verif Require GenProofs.
Local Open Scope string_scope.
Local Open Scope list_scope.
Local Open Scope Z_scope.

(** ** C84: the policies between two zones decide as the policy file says *)

(** The text is a configuration.  Between the zones of every header, or for all zones together, it gives
    a packet the outcome of the first term in force that matches it, of those of all headers for these
    zones, and none if there is no such term; this includes what the names in the address book and the
    applications stand for.  Missing for the full claim: the policies of the refutations below, terms
    that are split because of their size, expresspath, vpn tunnels and verbatim terms. *)
Theorem C84_zones_decide_as_policy_partial : forall today vs D fs lines,
  srx_policy_ok today vs D fs -> srx_text today fs = Ok lines ->
  exists conf, statements lines = Some conf /\
    forall h terms from to extra, In (h, terms) fs -> srx_asks h from to extra ->
    forall p, in_families vs (p_src p) -> in_families vs (p_dst p) -> p_platform p = "srx" ->
    forall o, srx_decides conf from to p o <-> first_says (srx_rule today p) (terms_between fs from to) o.
Proof. exact srx_decides_exact. Qed.
Print Assumptions C84_zones_decide_as_policy_partial.

(** *** A policy that meets the hypotheses *)
Definition na (tok : string) (n : net) : net := named_parent n tok.
Definition sxweb : term := Eval vm_compute in set_logging ["true"] (set_protocol ["tcp"; "udp"] (set_destination_port [(80, 80); (8000, 8080)]
  (set_source_address [na "NET10" (v4 10 0 0 0 8); na "NET6" (v6 db8 32)] (set_destination_address [na "WEB" (v4 192 0 2 7 32); na "WEB" (v4 192 0 2 8 32)] (accept "web"))))).
Definition sxping : term := Eval vm_compute in set_protocol ["icmp"] (set_icmp_type ["echo-reply"; "unreachable"]
  (set_source_address_exclude [na "LAB" (v4 10 1 0 0 16)] (set_source_address [na "NET10" (v4 10 0 0 0 8)] (set_owner (Some "net-ops") (set_comment ["Pings."] (accept "ping")))))).
Definition sxold : term := Eval vm_compute in set_expiration (Some 100) (set_option ["x"] (accept "old")).
Definition sxother : term := Eval vm_compute in set_platform ["juniper"] (set_option ["established"] (accept "other")).
Definition sxrest : term := Eval vm_compute in set_counter (Some "c") (set_action ["deny"] (blank "rest")).
Definition srx_sample : list (srx_header * list term) :=
  [(mkSrxHeader (Some ["from-zone"; "trust"; "to-zone"; "untrust"]) ["Outbound."] ["g1"] [], [sxold; sxweb; sxping]);
   (mkSrxHeader None [] [] [], [sxother]);
   (mkSrxHeader (Some ["from-zone"; "untrust"; "to-zone"; "trust"; "mixed"; "noverbose"]) [] [] [], [sxother; sxrest])].
Definition srx_sample_text : list string :=
  ["security {"; "    replace: address-book {"; "        global {";
   "                address NET10_0 10.0.0.0/8;"; "                address NET6_0 2001:db8::/32;";
   "                address PING_SRC_EXCLUDE_0 10.0.0.0/16;"; "                address PING_SRC_EXCLUDE_1 10.2.0.0/15;";
   "                address PING_SRC_EXCLUDE_2 10.4.0.0/14;"; "                address PING_SRC_EXCLUDE_3 10.8.0.0/13;";
   "                address PING_SRC_EXCLUDE_4 10.16.0.0/12;"; "                address PING_SRC_EXCLUDE_5 10.32.0.0/11;";
   "                address PING_SRC_EXCLUDE_6 10.64.0.0/10;"; "                address PING_SRC_EXCLUDE_7 10.128.0.0/9;";
   "                address WEB_0 192.0.2.7/32;"; "                address WEB_1 192.0.2.8/32;";
   "                address-set NET10 {"; "                    address NET10_0;"; "                }";
   "                address-set NET6 {"; "                    address NET6_0;"; "                }";
   "                address-set PING_SRC_EXCLUDE {";
   "                    address PING_SRC_EXCLUDE_0;"; "                    address PING_SRC_EXCLUDE_1;";
   "                    address PING_SRC_EXCLUDE_2;"; "                    address PING_SRC_EXCLUDE_3;";
   "                    address PING_SRC_EXCLUDE_4;"; "                    address PING_SRC_EXCLUDE_5;";
   "                    address PING_SRC_EXCLUDE_6;"; "                    address PING_SRC_EXCLUDE_7;"; "                }";
   "                address-set WEB {"; "                    address WEB_0;"; "                    address WEB_1;"; "                }";
   "        }"; "    }"; "    /*"; "    $Id:$"; "    $Date:$"; "    $Revision:$"; "    */"; "    replace: policies {";
   "        /*"; "        Outbound."; "        */"; "        from-zone trust to-zone untrust {"; "            apply-groups [ g1 ];";
   "            policy web {"; "                match {"; "                    source-address [ NET10 NET6 ];";
   "                    destination-address [ WEB ];"; "                    application web-app;"; "                }";
   "                then {"; "                    permit;"; "                    log {"; "                        session-close;"; "                    }";
   "                }"; "            }"; "            /*"; "            Pings."; "            Owner: net-ops"; "            */";
   "            policy ping {"; "                match {"; "                    source-address [ PING_SRC_EXCLUDE ];";
   "                    destination-address any;"; "                    application ping-app;"; "                }";
   "                then {"; "                    permit;"; "                }"; "            }"; "        }";
   "        from-zone untrust to-zone trust {"; "            policy rest {"; "                match {"; "                    source-address any;";
   "                    destination-address any;"; "                    application any;"; "                }"; "                then {"; "                    deny;";
   "                    count;"; "                }"; "            }"; "        }"; "    }"; "}"; "replace: applications {";
   "    application ping-app {"; "        term t1 protocol icmp icmp-type 0 inactivity-timeout 60;";
   "        term t2 protocol icmp icmp-type 3 inactivity-timeout 60;"; "    }";
   "    application web-app1 {"; "        term t1 protocol tcp destination-port 80;"; "    }";
   "    application web-app2 {"; "        term t2 protocol tcp destination-port 8000-8080;"; "    }";
   "    application web-app3 {"; "        term t3 protocol udp destination-port 80;"; "    }";
   "    application web-app4 {"; "        term t4 protocol udp destination-port 8000-8080;"; "    }";
   "    application-set web-app {"; "        application web-app1;"; "        application web-app2;";
   "        application web-app3;"; "        application web-app4;"; "    }"; "}"; ""].
(** What the names stand for. *)
Definition sample_names (zone name : string) (x : ipaddr) : Prop :=
  (exists m, In m (t_source_address sxweb ++ t_destination_address sxweb) /\ nptoken m = name /\ covers m x) \/
  (name = "PING_SRC_EXCLUDE" /\ side_matches (t_source_address sxping) (t_source_address_exclude sxping) x).
Lemma sample_plain s : In s ["web"; "ping"; "rest"; "NET10"; "NET6"; "WEB"; "PING_SRC_EXCLUDE"; "trust"; "untrust"; "g1"] -> proper_name s.
Proof.
  intros I. assert (P : forallb (fun s => negb (is_empty s) && forall_char plain_char s && negb (String.eqb s "any")) ["web"; "ping"; "rest"; "NET10"; "NET6"; "WEB"; "PING_SRC_EXCLUDE"; "trust"; "untrust"; "g1"] = true) by reflexivity.
  rewrite forallb_forall in P. specialize (P s I). rewrite !andb_true_iff in P. destruct P as ((A & B) & C). split; [split; [|exact B]|].
  - intros ->. discriminate A.
  - intros ->. discriminate C.
Qed.
Lemma sample_live t : In t [sxold; sxweb; sxping; sxother; sxrest] -> srx_live 100 t -> In t [sxweb; sxping; sxrest].
Proof.
  intros [<-|[<-|[<-|[<-|[<-|[]]]]]] (F & M & _); cbn [In]; auto; exfalso.
  - specialize (F 100 eq_refl). lia.
  - destruct M as ([X|[X|[]]] & _); discriminate X.
Qed.
Ltac srx_none := first [intros ? ? []|intros ? []|intros []].
Lemma sample_term_ok t : In t [sxweb; sxping; sxrest] -> srx_term_ok [V4; V6] t.
Proof.
  assert (Sd : forall inc, valid_list inc -> srx_side_ok [V4; V6] inc []) by (intros inc V; split; [exact V|]; split; [constructor|congruence]).
  assert (Qc : forall t, In t [sxweb; sxping; sxrest] -> quiet_comments (term_comments t)).
  { intros u I c l J K. assert (H : forallb (fun u => forallb (fun c => forallb (fun l => negb (substring_of "*/" l)) (split_char newline c)) (term_comments u)) [sxweb; sxping; sxrest] = true) by reflexivity.
    rewrite forallb_forall in H. specialize (H u I). rewrite forallb_forall in H. specialize (H c J). rewrite forallb_forall in H. specialize (H l K). apply quiet_b. destruct (substring_of "*/" l); [discriminate H|reflexivity]. }
  intros I. constructor; try (destruct I as [<-|[<-|[<-|[]]]]; reflexivity); try exact (Qc t I).
  - destruct I as [<-|[<-|[<-|[]]]]; eexists; (split; [reflexivity|cbn; auto]).
  - apply sample_plain. destruct I as [<-|[<-|[<-|[]]]]; cbn; auto.
  - destruct I as [<-|[<-|[<-|[]]]]; [apply Sd; valid_tac| |apply Sd; constructor].
    split; [valid_tac|]. split; [valid_tac|]. intros _. split; [discriminate|]. exists (V4, 10 * 2 ^ 24). split; [split; [left; reflexivity|cbn; lia]|]. split.
    + right. eexists. split; [left; reflexivity|]. split; [reflexivity|cbn; lia].
    + intros (n & [<-|[]] & _ & C). cbn in C. lia.
  - destruct I as [<-|[<-|[<-|[]]]]; apply Sd; [valid_tac|constructor|constructor].
  - intros n J. apply sample_plain. destruct I as [<-|[<-|[<-|[]]]]; cbn in J; repeat (destruct J as [<-|J]; [cbn; auto 10|]); destruct J.
  - destruct I as [<-|[<-|[<-|[]]]]; cbn; lia.
  - intros q J. destruct I as [<-|[<-|[<-|[]]]]; cbn in J; repeat (destruct J as [<-|J]; [split; [apply str_in_spec; reflexivity|discriminate]|]); destruct J.
  - intros r J. destruct I as [<-|[<-|[<-|[]]]]; cbn in J; repeat (destruct J as [<-|J]; [cbn; lia|]); destruct J.
  - destruct I as [<-|[<-|[<-|[]]]]; discriminate.
  - intros X. destruct I as [<-|[<-|[<-|[]]]]; [|split; reflexivity..]. destruct X. reflexivity.
  - intros s J. destruct I as [<-|[<-|[<-|[]]]]; destruct J.
  - destruct I as [<-|[<-|[<-|[]]]]; repeat split; discriminate.
  - destruct I as [<-|[<-|[<-|[]]]]; repeat split; discriminate.
Qed.

Example C84_example : srx_policy_ok 100 [V4; V6] sample_names srx_sample /\ srx_text 100 srx_sample = Ok srx_sample_text.
Proof.
  split; [|vm_compute; reflexivity].
  assert (Ts : forall h terms t, In (h, terms) srx_sample -> In t terms -> srx_live 100 t -> In t [sxweb; sxping; sxrest]).
  { intros h terms t I J L. apply sample_live; [|exact L]. unfold srx_sample in I. destruct I as [E|[E|[E|[]]]]; apply pair_equal_spec in E; destruct E as (_ & <-); cbn in J; repeat (destruct J as [<-|J]; [cbn; auto 10|]); destruct J. }
  assert (Us : forall n, used_name 100 srx_sample n -> In n ["NET10"; "NET6"; "WEB"; "PING_SRC_EXCLUDE"]).
  { intros n (h & terms & t & I & _ & J & L & K). pose proof (Ts h terms t I J L) as M. destruct M as [<-|[<-|[<-|[]]]]; cbn in K; repeat (destruct K as [<-|K]; [cbn; auto 10|]); destruct K. }
  constructor.
  - intros h terms I N. destruct I as [E|[E|[E|[]]]]; apply pair_equal_spec in E; destruct E as (<- & <-); [|destruct N; reflexivity|]; (eexists; eexists; eexists; split; [reflexivity|]).
    + constructor; [split; apply sample_plain; apply str_in_spec; reflexivity|right; right; split; [srx_none|split; [srx_none|reflexivity]]|srx_none| |].
      * intros c l [<-|[]] [<-|[]]. apply quiet_b. reflexivity.
      * intros s [<-|[]]. apply sample_plain. apply str_in_spec; reflexivity.
    + constructor; [split; apply sample_plain; apply str_in_spec; reflexivity|right; right; split; [|split; [|reflexivity]]| |srx_none|srx_none]; intros [X|[X|[]]]; discriminate X.
  - intros h terms t I _ J L. apply sample_term_ok. exact (Ts h terms t I J L).
  - intros h terms from to extra t I _ J L. pose proof (Ts h terms t I J L) as M.
    assert (Nx : forall n x, In n ["NET10"; "NET6"; "WEB"] -> sample_names from n x <-> exists m, In m (t_source_address sxweb ++ t_destination_address sxweb) /\ nptoken m = n /\ covers m x).
    { intros n x K. unfold sample_names. split; [|auto]. intros [H|(E & _)]; [exact H|]. subst n. destruct K as [K|[K|[K|[]]]]; discriminate K. }
    assert (Zs : forall f n x, sample_names f n x = sample_names from n x) by reflexivity.
    destruct M as [<-|[<-|[<-|[]]]]; split; [| | |intros n x []..].
    + intros n x K _. rewrite Nx by (cbn in K; destruct K as [<-|[<-|[]]]; cbn; auto). split.
      * intros (m & Im & E & C). apply in_app_or in Im. destruct Im as [Im|Im]; [exists m; auto|]. exfalso. cbn in K, Im. destruct Im as [<-|[<-|[]]]; cbn in E; subst n; destruct K as [K|[K|[]]]; discriminate K.
      * intros (m & Im & E & C). exists m. split; [apply in_or_app; left; exact Im|auto].
    + intros n x K _. rewrite (Zs to), Nx by (cbn in K; destruct K as [<-|[<-|[]]]; cbn; auto). split.
      * intros (m & Im & E & C). apply in_app_or in Im. destruct Im as [Im|Im]; [|exists m; auto]. exfalso. cbn in K, Im. destruct Im as [<-|[<-|[]]]; cbn in E; subst n; destruct K as [K|[K|[]]]; discriminate K.
      * intros (m & Im & E & C). exists m. split; [apply in_or_app; right; exact Im|auto].
    + intros x _. change (sample_names from "PING_SRC_EXCLUDE" x <-> side_matches (t_source_address sxping) (t_source_address_exclude sxping) x). unfold sample_names. split; [|auto].
      intros [(m & Im & E & _)|(_ & H)]; [|exact H]. cbn in Im. repeat (destruct Im as [<-|Im]; [discriminate E|]). destruct Im.
  - reflexivity.
  - intros a f b f' c from to t t' E A A' _ _ _ _ _.
    assert (I : In f srx_sample) by (rewrite E; apply in_or_app; right; left; reflexivity).
    assert (I' : In f' srx_sample) by (rewrite E; apply in_or_app; right; right; apply in_or_app; right; left; reflexivity).
    assert (Same : f = f').
    { destruct I as [<-|[<-|[<-|[]]]], I' as [<-|[<-|[<-|[]]]]; try reflexivity; try discriminate A; try discriminate A';
        cbn [asks_for sh_options fst] in A, A'; apply andb_true_iff in A, A'; rewrite !String.eqb_eq in A, A'; destruct A, A'; congruence. }
    assert (U : NoDup srx_sample) by (repeat constructor; cbn [In]; intros X; repeat (destruct X as [X|X]; [discriminate X|]); destruct X).
    rewrite E in U. apply NoDup_remove_2 in U. apply U. apply in_or_app. right. apply in_or_app. right. left. symmetry. exact Same.
  - intros n m k Un Um K. apply Us in Un. apply Us in Um. destruct Un as [<-|[<-|[<-|[<-|[]]]]], Um as [<-|[<-|[<-|[<-|[]]]]]; discriminate.
Qed.

(** *** Policies whose configuration decides differently, or is none *)

Definition sxheader (from to : string) : srx_header := mkSrxHeader (Some ["from-zone"; from; "to-zone"; to]) [] [] [].
Definition sxpkt (src dst : Z) : packet :=
  mkPacket (V4, src) (V4, dst) "tcp" 99 80 "" 0 (fun _ => False)
    (fun _ => False) (fun _ => False) (fun _ => False) (fun _ => False)
    "0" "" 0 64 100 64 "" "" "" "" "" "" "" "inet" "srx".
(** The configuration gives the packet this outcome. *)
Definition srx_gives (lines : list string) (from to : string) (p : packet) (o : string) : Prop :=
  exists conf, statements lines = Some conf /\ srx_decides conf from to p o.
Lemma one_policy conf from to p n ms th rest o : context conf from to = Block ["policy"; n] [Block ["match"] ms; Block ["then"] th] :: rest ->
  NoDup (policy_names (context conf from to)) -> In o srx_outcomes -> In (Leaf [o]) th -> (forall m, In m ms -> match_says conf from to p m) -> srx_decides conf from to p o.
Proof.
  intros E D Io It M. split; [exact D|]. exists []. eexists. exists rest. split; [exact E|]. split; [|intros y a []]. split; [reflexivity|].
  change (within ["match"] [Block ["match"] ms; Block ["then"] th]) with (ms ++ []). change (within ["then"] [Block ["match"] ms; Block ["then"] th]) with (th ++ []). rewrite !app_nil_r. auto.
Qed.
Lemma sxnodup1 {A} (x : A) : NoDup [x]. Proof. constructor; [intros []|constructor]. Qed.
Lemma said_any conf from to p k : In k ["source-address"; "destination-address"; "application"] -> match_says conf from to p (Leaf [k; "any"]).
Proof. intros [<-|[<-|[<-|[]]]]; (exists "any"; split; [left; reflexivity|left; reflexivity]). Qed.
(** Exactly eight ICMP types: the brace that ends the application is missing. *)
Theorem C84_eight_icmp_types_refuted : exists lines,
  srx_text 0 [(sxheader "a" "b", [set_protocol ["icmp"] (set_icmp_type ["echo-reply"; "unreachable"; "source-quench"; "redirect";
    "alternate-address"; "echo-request"; "router-advertisement"; "router-solicitation"] (accept "t"))])] = Ok lines /\ statements lines = None.
Proof. eexists. split; vm_compute; reflexivity. Qed.
Print Assumptions C84_eight_icmp_types_refuted.
(** More than one action. *)
Theorem C84_two_actions_refuted : exists lines,
  srx_text 0 [(sxheader "a" "b", [set_action ["accept"; "deny"] (blank "t")])] = Ok lines /\ statements lines = None.
Proof. eexists. split; vm_compute; reflexivity. Qed.
Print Assumptions C84_two_actions_refuted.
(** A term all of whose source addresses are excluded permits every source. *)
Theorem C84_all_excluded_refuted : exists lines p,
  let t := set_source_address_exclude [na "NET10" (v4 10 0 0 0 8)] (set_source_address [na "NET10" (v4 10 0 0 0 8)] (accept "t")) in
  srx_text 0 [(sxheader "a" "b", [t])] = Ok lines /\ in_families [V4; V6] (p_src p) /\ srx_gives lines "a" "b" p "permit" /\ ~ term_matches t p.
Proof.
  eexists. exists (sxpkt 1 2). cbv zeta. split; [vm_compute; reflexivity|]. split; [split; [left; reflexivity|cbn; lia]|]. split.
  - eexists. split; [vm_compute; reflexivity|]. eapply one_policy; [vm_compute; reflexivity|vm_compute; apply sxnodup1|left; reflexivity|left; reflexivity|].
    intros m [<-|[<-|[<-|[]]]]; apply said_any; cbn; auto.
  - intros ((_ & ([X|(n & [<-|[]] & _ & C)] & _) & _) & _); [discriminate X|]. cbn in C. lia.
Qed.
Print Assumptions C84_all_excluded_refuted.
(** Options other than established are dropped without a word. *)
Theorem C84_options_refuted : exists lines p,
  let t := set_option ["is-fragment"] (accept "t") in
  srx_text 0 [(sxheader "a" "b", [t])] = Ok lines /\ in_families [V4; V6] (p_src p) /\ srx_gives lines "a" "b" p "permit" /\ ~ term_matches t p.
Proof.
  eexists. exists (sxpkt 1 2). cbv zeta. split; [vm_compute; reflexivity|]. split; [split; [left; reflexivity|cbn; lia]|]. split.
  - eexists. split; [vm_compute; reflexivity|]. eapply one_policy; [vm_compute; reflexivity|vm_compute; apply sxnodup1|left; reflexivity|left; reflexivity|].
    intros m [<-|[<-|[<-|[]]]]; apply said_any; cbn; auto.
  - intros (_ & _ & _ & _ & (_ & X & _) & _). exact (X "is-fragment" (or_introl eq_refl)).
Qed.
Print Assumptions C84_options_refuted.
(** Terms with one name in two headers share the name for what is left after the exclusions: the
    first one permits what only the second one should. *)
Theorem C84_shared_exclusion_refuted : exists lines p,
  let t := set_source_address_exclude [v4 10 1 0 0 16] (set_source_address [v4 10 0 0 0 15] (accept "t")) in
  let u := set_source_address_exclude [v4 20 1 0 0 16] (set_source_address [v4 20 0 0 0 15] (accept "t")) in
  srx_text 0 [(sxheader "a" "b", [t]); (sxheader "c" "d", [u])] = Ok lines /\ in_families [V4; V6] (p_src p) /\ srx_gives lines "a" "b" p "permit" /\ ~ term_matches t p.
Proof.
  eexists. exists (sxpkt (20 * 2 ^ 24) 2). cbv zeta. split; [vm_compute; reflexivity|]. split; [split; [left; reflexivity|cbn; lia]|]. split.
  - eexists. split; [vm_compute; reflexivity|]. eapply one_policy; [vm_compute; reflexivity|vm_compute; apply sxnodup1|left; reflexivity|left; reflexivity|].
    intros m [<-|[<-|[<-|[]]]]; [|apply said_any; cbn; auto..]. exists "T_SRC_EXCLUDE". split; [left; reflexivity|]. right. right.
    eexists. exists "T_SRC_EXCLUDE_1". split; [vm_compute; right; right; left; reflexivity|]. split; [right; left; reflexivity|].
    exists "20.0.0.0/16". split; [vm_compute; right; left; reflexivity|]. exists (20 * 2 ^ 24), 16. repeat (split; [vm_compute; first [reflexivity|congruence]|]). reflexivity.
  - intros ((_ & ([X|(n & [<-|[]] & _ & C)] & _) & _) & _); [discriminate X|]. cbn in C. lia.
Qed.
Print Assumptions C84_shared_exclusion_refuted.
(** A name that is another one with a number: FOO_1 stands for the second address of FOO as well. *)
Theorem C84_numbered_name_refuted : exists lines p,
  let t := set_source_address [na "FOO" (v4 10 0 0 0 16); na "FOO" (v4 20 0 0 0 16)] (set_action ["deny"] (blank "t")) in
  let u := set_source_address [na "FOO_1" (v4 30 0 0 0 16)] (accept "u") in
  srx_text 0 [(sxheader "a" "b", [t]); (sxheader "c" "d", [u])] = Ok lines /\ in_families [V4; V6] (p_src p) /\ srx_gives lines "c" "d" p "permit" /\ ~ term_matches u p.
Proof.
  eexists. exists (sxpkt (20 * 2 ^ 24) 2). cbv zeta. split; [vm_compute; reflexivity|]. split; [split; [left; reflexivity|cbn; lia]|]. split.
  - eexists. split; [vm_compute; reflexivity|]. eapply one_policy; [vm_compute; reflexivity|vm_compute; apply sxnodup1|left; reflexivity|left; reflexivity|].
    intros m [<-|[<-|[<-|[]]]]; [|apply said_any; cbn; auto..]. exists "FOO_1". split; [left; reflexivity|]. right. left.
    exists "20.0.0.0/16". split; [vm_compute; right; left; reflexivity|]. exists (20 * 2 ^ 24), 16. repeat (split; [vm_compute; first [reflexivity|congruence]|]). reflexivity.
  - intros ((_ & ([X|(n & [<-|[]] & _ & C)] & _) & _) & _); [discriminate X|]. cbn in C. lia.
Qed.
Print Assumptions C84_numbered_name_refuted.
(** Two headers for the same zones may bring policies with the same name, of which the device keeps one. *)
Theorem C84_policy_names_refuted : exists lines conf,
  srx_text 0 [(sxheader "a" "b", [accept "t"]); (sxheader "a" "b", [accept "t"])] = Ok lines /\ statements lines = Some conf /\ ~ NoDup (policy_names (context conf "a" "b")).
Proof.
  eexists. eexists. split; [vm_compute; reflexivity|]. split; [vm_compute; reflexivity|]. vm_compute. intros H. inversion H as [|? ? N]. apply N. left. reflexivity.
Qed.
Print Assumptions C84_policy_names_refuted.

(** *** Terms with too many addresses *)

(** The pieces of a large term together match what the term matches; each has its action, its dates and
    its platforms, no two have one name, and the addresses of each side weigh at most 515. *)
Theorem C84_large_terms_split_exactly : forall vs t,
  (forall p, term_matches t p <-> exists u, In u (fix_large_term vs t) /\ term_matches u p) /\
  NoDup (map t_name (fix_large_term vs t)) /\
  forall u, In u (fix_large_term vs t) ->
    t_action u = t_action t /\ (forall today, in_force today u <-> in_force today t) /\ (forall pl, meant_for pl u <-> meant_for pl t) /\
    (side_weight vs (t_source_address u) + side_weight vs (t_destination_address u) <= 1030).
Proof.
  intros vs t. split; [intros p; apply large_matches|]. split; [apply large_names|]. intros u I. destruct (large_same vs t u I) as (A & B & C & W). split; [exact A|]. split; [exact B|]. split; [exact C|].
  assert (L : forall l, side_weight vs l <= list_weight l).
  { induction l as [|n l IH]; [cbn; lia|]. unfold side_weight, list_weight in *. cbn [fold_right]. unfold srx_weight at 1. destruct (existsb (ver_eqb (nver n)) vs), (nver n); lia. }
  pose proof (L (t_source_address u)). pose proof (L (t_destination_address u)). destruct W as [->|(W1 & W2)]; [|lia].
  assert (X : byte_length vs t <= 1023).
  { unfold fix_large_term in I. destruct (1023 <? byte_length vs t) eqn:E; [|lia]. exfalso. apply in_map_iff in I. destruct I as (kp & En & _). assert (En' : t_name (set_name (t_name t ++ "_" ++ dec (fst kp)) (set_source_address (fst (snd kp)) (set_destination_address (snd (snd kp)) t)))%string = t_name t) by (rewrite En; reflexivity).
    change ((t_name t ++ "_" ++ dec (fst kp))%string = t_name t) in En'. assert (Ln : String.length (t_name t ++ "_" ++ dec (fst kp))%string = String.length (t_name t)) by (rewrite En'; reflexivity). rewrite GenProofs.length_app in Ln. cbn in Ln. lia. }
  rewrite weight_bytes in X. lia.
Qed.
Print Assumptions C84_large_terms_split_exactly.
Definition many (base : Z) : list net := map (fun k => plain V4 (base + 2 * Z.of_nat k) 32) (seq 0 512).
(** The limit of 1023 is not kept: a term with 512 addresses on each side comes back in one piece. *)
Theorem C84_large_limit_refuted : exists vs t u, In u (fix_large_term vs t) /\ fix_large_term vs t <> [t] /\
  1023 < side_weight vs (t_source_address u) + side_weight vs (t_destination_address u).
Proof.
  set (t := set_source_address (many 0) (set_destination_address (many 100000) (accept "t"))). exists [V4; V6], t, (hd t (fix_large_term [V4; V6] t)).
  assert (L : map t_name (fix_large_term [V4; V6] t) = ["t_0"]) by (vm_compute; reflexivity).
  split; [destruct (fix_large_term [V4; V6] t); [discriminate L|left; reflexivity]|]. split; [intros E; rewrite E in L; discriminate L|]. vm_compute. reflexivity.
Qed.
Print Assumptions C84_large_limit_refuted.
Example C84_large_example : let pieces := fix_large_term [V4; V6] (set_source_address (many 0 ++ many 5000) (accept "t")) in
  map t_name pieces = ["t_0"; "t_1"] /\ map (fun u => List.length (t_source_address u)) pieces = [512%nat; 512%nat].
Proof. vm_compute. auto. Qed.

(** ** C40: expired terms leave nothing in the configuration *)
Theorem C40_srx_expired_not_rendered : forall today fs lines, srx_text today fs = Ok lines ->
  srx_text today (map (fun f => (fst f, filter (valid_on today) (snd f))) fs) = Ok lines.
Proof.
  intros today fs lines H. rewrite <- (srx_unexpired today fs lines H). f_equal. apply map_ext. intros f. unfold unexpired. rewrite filter_valid. reflexivity.
Qed.
Print Assumptions C40_srx_expired_not_rendered.
Example C40_srx_example : filter (valid_on 100) [sxold; sxweb] = [sxweb] /\ filter (valid_on 99) [sxold; sxweb] = [sxold; sxweb] /\ srx_text 100 srx_sample = Ok srx_sample_text.
Proof. vm_compute. auto. Qed.

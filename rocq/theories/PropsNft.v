(** Theorems C35, C40, C62 and C63: nftables rulesets (nftables.py). *)
From Coq Require Import Lia.
From Verif Require Import SpecNft Samples BaseFacts PyStrFacts TextProofs CiscoProofs CiscoProofs2 CiscoTerm CiscoEst CiscoAcl NftText NftTerm NftPolicy NftWhole.
From Verif Require Import PropsPolicy.
Local Open Scope string_scope.
Local Open Scope list_scope.
Local Open Scope Z_scope.

(** ** C35: a ruleset decides as the policy says *)

(** The text of a policy reads as a ruleset. Its chain for a header accepts replies, and
    decides every other packet as the first term in force that matches it says: a verdict of
    the first matching term, none when there is no such term. For policies whose terms can be
    expressed; missing for the full claim: the terms of the refutations below, and options. *)
Theorem C35_ruleset_decides_as_policy_partial : forall today fs lines,
  nft_policy today fs = Ok lines -> nft_policy_ok today fs ->
  exists cs, read_nft (join nl lines) = Some cs /\
    forall n h terms i p o, nth_error fs n = Some (h, terms) -> process_header (nh_options h) = Ok i -> nft_traffic (header_families i) p ->
      (nft_decides cs (header_table i, header_chain i n) p o <->
       (p_option p "established" /\ o = "accept") \/ (~ p_option p "established" /\ first_says (nft_applies today p) terms o)).
Proof.
  intros today fs lines H OK. destruct (nft_policy_exact today fs lines H OK) as (cs & R & _ & _ & K). exists cs. split; [exact R|].
  intros n h terms i p o E E' T. exact (proj2 (K n h terms i E E') p o T).
Qed.
Print Assumptions C35_ruleset_decides_as_policy_partial.

Definition npkt (v : ver) (src dst : Z) (proto : string) (sport dport : Z) (flags : string -> Prop) (ty sif dif : string) : packet :=
  mkPacket (v, src) (v, dst) proto sport dport ty 0 flags
    (fun _ => False) (fun _ => False) (fun _ => False) (fun _ => False)
    "0" "" 0 64 100 64 sif dif "" "" "" "" "" (match v with V4 => "inet" | V6 => "inet6" end) "nftables".
Definition nweb : term :=
  set_protocol ["tcp"; "udp"] (set_source_port [(1024, 65535)] (set_destination_port [(80, 80); (443, 444)]
    (set_source_address [v4t 10 0 0 0 8 "office" "" ""; v4 192 168 0 0 16; v6 db8 32] (set_source_address_exclude [v4 10 1 0 0 16]
      (set_comment ["allow web"] (accept "web")))))).
Definition nping : term := set_protocol ["icmpv6"] (set_icmp_type ["echo-request"; "echo-reply"] (accept "ping")).
Definition nold : term := set_expiration (Some 100) (set_action ["deny"] (blank "old")).
Definition nrest : term := set_action ["deny"] (blank "rest").
Definition nin : term := set_source_interface (Some "eth0") (set_protocol ["tcp"] (set_destination_port [(22, 22)] (accept "ssh"))).
Definition head6 : nft_header := mkNftHeader ["mixed"; "INPUT"; "150"; "table-name"; "edge"] ["edge filter"].
Definition head4 : nft_header := mkNftHeader ["inet"; "output"; "ACCEPT"; "noverbose"; "base-chain-name"; "local"] [].
Definition twon : list (nft_header * list term) := [(head6, [nold; nweb; nping; nrest]); (head4, [nin; nrest])].
Ltac no_in := let X := fresh in intros; cbn in *; try contradiction; intuition (try discriminate; try congruence).
Ltac nft_simple := constructor;
  [unfold only_nft_conditions; cbn; repeat split
  |reflexivity
  |eexists; split; [reflexivity|cbn; auto]
  |reflexivity
  |split; [valid_tac|split; [valid_tac|try (intros X; destruct (X eq_refl))]]
  |split; [valid_tac|split; [valid_tac|try (intros X; destruct (X eq_refl))]]
  | | | | | |reflexivity].
Lemma nrest_ok fams : nft_term_ok fams nrest.
Proof. nft_simple; [no_in|no_in|no_in|no_in|]. split; [|left; reflexivity]. no_in. Qed.
Lemma nping_ok fams : nft_term_ok fams nping.
Proof.
  nft_simple; [intros q [<-|[]]; apply str_in_spec; reflexivity| |no_in| |].
  - split; [no_in|]. intros _ _ q [<-|[]]. reflexivity.
  - intros _. right. split; [reflexivity|]. intros ty [<-|[<-|[]]]; apply str_in_spec; reflexivity.
  - split; [no_in|]. right. left. split; reflexivity.
Qed.
Lemma nin_ok fams : nft_term_ok fams nin.
Proof.
  nft_simple; [intros q [<-|[]]; apply str_in_spec; reflexivity|no_in| |no_in|].
  - intros r [<-|[]]. cbn. repeat match goal with |- _ /\ _ => split end; try lia; try discriminate. intros q [<-|[]]. cbn. auto.
  - split; [|right; right; reflexivity]. intros s [X|X]; [injection X as <-; split; [discriminate|reflexivity]|discriminate X].
Qed.
Lemma nweb_ok fams : nft_term_ok fams nweb.
Proof.
  nft_simple; [|intros q [<-|[<-|[]]]; apply str_in_spec; reflexivity| | |no_in|].
  - intros _. exists (V4, ten 2 0 1). split; [eexists; split; [left; reflexivity|vm_compute; intuition congruence]|].
    intros (n & [<-|[]] & X). vm_compute in X. destruct X as (_ & _ & X). discriminate X.
  - no_in.
  - intros r I. cbn in I. repeat match goal with |- _ /\ _ => split end;
      [destruct I as [<-|[<-|[<-|[]]]]; cbn; lia|destruct I as [<-|[<-|[<-|[]]]]; cbn; lia|destruct I as [<-|[<-|[<-|[]]]]; cbn; lia|discriminate| |].
    + intros q [<-|[<-|[]]]; cbn; auto.
    + intros _. split; discriminate.
  - split; [no_in|]. intros [X|X]; destruct (X eq_refl).
Qed.
Ltac nseen := match goal with |- nft_traffic _ ?p => split; [exists (fst (p_src p)); cbn; repeat match goal with |- _ /\ _ => split end; try (auto; fail); try lia; try discriminate
                                    |split; [right; cbn; tauto|split; [cbn; tauto|reflexivity]]] end.
Example C35_example : nft_policy_ok 100 twon /\
  nft_policy 100 twon = Ok ["table inet edge {"; "    chain web {";
          "        ip saddr { 10.0.0.0/16, 10.2.0.0/15, 10.4.0.0/14, 10.8.0.0/13, 10.16.0.0/12, 10.32.0.0/11, 10.64.0.0/10, 10.128.0.0/9, 192.168.0.0/16 } tcp sport 1024-65535 tcp dport { 80, 443-444 } ct state new accept comment ""allow web""";
          "        ip saddr { 10.0.0.0/16, 10.2.0.0/15, 10.4.0.0/14, 10.8.0.0/13, 10.16.0.0/12, 10.32.0.0/11, 10.64.0.0/10, 10.128.0.0/9, 192.168.0.0/16 } udp sport 1024-65535 udp dport { 80, 443-444 } ct state new accept";
          "        ip6 saddr 2001:db8::/32 tcp sport 1024-65535 tcp dport { 80, 443-444 } ct state new accept comment ""allow web""";
          "        ip6 saddr 2001:db8::/32 udp sport 1024-65535 udp dport { 80, 443-444 } ct state new accept";
          "    }"; "    chain ping {"; "        icmpv6 type { echo-request, echo-reply } accept comment """"";
          "    }"; "    chain rest {"; "         drop comment """""; "    }";
          "    chain root0 {"; "        #edge filter"; "        type filter hook input priority 150; policy drop;";
          "        ct state established,related accept comment ""edge filter"""; "        jump web"; "        jump ping"; "        jump rest";
          "    }"; "}"; "table ip filtering_policies {"; "    chain ssh {";
          "        iifname eth0 tcp dport 22 ct state new accept"; "    }";
          "    chain rest {"; "         drop"; "    }"; "    chain local1 {";
          "        type filter hook output priority 0; policy accept;"; "        ct state established,related accept"; "        jump ssh";
          "        jump rest"; "    }"; "}"; ""; ""] /\
  (exists i, process_header (nh_options head6) = Ok i /\ nft_traffic (header_families i) (npkt V4 (ten 2 0 1) 5 "tcp" 3000 80 (fun _ => False) "" "" "")).
Proof.
  split; [|split; [vm_compute; reflexivity|]].
  - constructor.
    + vm_compute. repeat constructor; cbn; intuition discriminate.
    + intros [|[|n]] h terms i E E'; [| |destruct n; discriminate E]; cbn in E; injection E as <- <-; vm_compute in E'; apply ok_inj in E'; subst i; split; vm_compute; reflexivity.
    + intros h terms c [E|[E|[]]]; injection E as <- <-; intros I; cbn in I; [destruct I as [<-|[]]; reflexivity|destruct I].
    + intros h terms i t [E|[E|[]]]; injection E as <- <-; intros _ I (L & _ & _).
      * destruct I as [<-|[<-|[<-|[<-|[]]]]]; [specialize (L 100 eq_refl); lia|apply nweb_ok|apply nping_ok|apply nrest_ok].
      * destruct I as [<-|[<-|[]]]; [apply nin_ok|apply nrest_ok].
  - eexists. split; [reflexivity|]. nseen.
Qed.

(** A header with one term accepts a packet that the term does not match. *)
Definition lets_through (opts : list string) (t : term) (p : packet) : Prop :=
  exists i lines cs, process_header opts = Ok i /\ nft_policy 100 [(mkNftHeader opts [], [t])] = Ok lines /\ read_nft (join nl lines) = Some cs /\
    nft_traffic (header_families i) p /\ ~ p_option p "established" /\
    nft_decides cs (header_table i, header_chain i 0) p "accept" /\ ~ term_matches t p.
Lemma through cs at_ p est jmp js c v r : nrules_at at_ cs = est :: jmp :: js -> ~ nmeets est p -> nmeets jmp p -> nr_target jmp = Some (Jump c) ->
  In r (nrules_at (fst at_, c) cs) -> nmeets r p -> Forall (fun x => nr_target x = Some (Verdict v)) (nrules_at (fst at_, c) cs) -> nft_decides cs at_ p v.
Proof.
  intros E Ne Mj Tj Ir Mr F. unfold nft_decides. destruct cs as [|x cs]; [discriminate E|]. set (l := x :: cs) in *.
  assert (K : forall d, nchain_gives (S d) l (fst at_, c) p v).
  { intros d. cbn [nchain_gives]. apply first_says_block.
    - intros y z a b Iy Iz (_ & Oy) (_ & Oz). rewrite (proj1 (Forall_forall _ _) F y Iy) in Oy. rewrite (proj1 (Forall_forall _ _) F z Iz) in Oz. congruence.
    - exists r. split; [exact Ir|]. split; [exact Mr|]. rewrite (proj1 (Forall_forall _ _) F r Ir). reflexivity. }
  cbn [List.length l]. remember (S (List.length cs)) as d eqn:Ed. cbn [nchain_gives]. rewrite E. exists [est], jmp, js. split; [reflexivity|]. split.
  - split; [exact Mj|]. rewrite Tj. subst d. apply K.
  - intros y a [<-|[]] (M & _). destruct (Ne M).
Qed.
Ltac read_nft_lines := cbv -[prefix_says one_of in_ports SpecPorts.in_range type_says].
Ltac not_reply := unfold nmeets; cbn [nr_conditions]; let X := fresh in intros X; inversion X as [|? ? X1 X2]; subst; destruct X1 as (? & [<-|[<-|[]]] & X1); exact X1.
Ltac goes k := eexists; eexists; eexists; split; [vm_compute; reflexivity|]; split; [vm_compute; reflexivity|]; split; [read_nft_lines; reflexivity|];
  split; [nseen|split; [cbn; tauto|split; [eapply through; [read_nft_lines; reflexivity|not_reply|apply Forall_nil|reflexivity|read_nft_lines; k
     |unfold nmeets; cbn [nr_conditions]; repeat (apply Forall_cons || apply Forall_nil)|read_nft_lines; repeat (apply Forall_cons; [reflexivity|]); apply Forall_nil]|]]].
Ltac new_flow := eexists; split; [left; reflexivity|cbn; tauto].
(** Ports of one side only, beside several protocols: the ports are dropped. *)
Theorem C35_ports_dropped_refuted : exists t p, lets_through ["inet"; "input"] t p.
Proof.
  exists (set_protocol ["tcp"; "udp"] (set_destination_port [(80, 80)] (accept "t"))), (npkt V4 1 5 "tcp" 3000 22 (fun _ => False) "" "" "").
  goes ltac:(left; reflexivity); [split; [reflexivity|eexists; split; [left; reflexivity|reflexivity]]|new_flow|].
  intros (_ & _ & (_ & _ & [X|(r & [<-|[]] & X)]) & _); [discriminate X|]. vm_compute in X. destruct X as (X & _). apply X. reflexivity.
Qed.
Print Assumptions C35_ports_dropped_refuted.
(** With an interface, only the first rule of the term asks for it. *)
Theorem C35_interface_first_rule_only_refuted : exists t p, lets_through ["inet"; "input"] t p.
Proof.
  exists (set_protocol ["tcp"; "udp"] (set_source_interface (Some "eth0") (set_source_port [(1, 65535)] (set_destination_port [(80, 80)] (accept "t"))))), (npkt V4 1 5 "udp" 3000 80 (fun _ => False) "" "eth1" "").
  goes ltac:(right; left; reflexivity); [split; [reflexivity|eexists; split; [left; reflexivity|vm_compute; split; discriminate]]|split; [reflexivity|eexists; split; [left; reflexivity|vm_compute; split; discriminate]]|new_flow|].
  intros (_ & _ & _ & _ & _ & _ & _ & _ & (_ & _ & _ & _ & X & _)). discriminate X.
Qed.
Print Assumptions C35_interface_first_rule_only_refuted.
(** A source that is excluded in full: the condition is dropped. *)
Theorem C35_full_exclusion_refuted : exists t p, lets_through ["inet"; "input"] t p.
Proof.
  exists (set_source_address [v4 10 1 0 0 16] (set_source_address_exclude [v4 10 0 0 0 8] (accept "t"))), (npkt V4 5 5 "tcp" 3000 80 (fun _ => False) "" "" "").
  goes ltac:(left; reflexivity); [new_flow|].
  intros ((_ & ([X|(n & [<-|[]] & X)] & _) & _) & _); [discriminate X|]. vm_compute in X. destruct X as (_ & X & _). apply X. reflexivity.
Qed.
Print Assumptions C35_full_exclusion_refuted.
(** An exclusion from everything is dropped. *)
Theorem C35_exclusion_alone_refuted : exists t p, lets_through ["inet"; "input"] t p.
Proof.
  exists (set_source_address_exclude [v4 10 0 0 0 8] (accept "t")), (npkt V4 (ten 1 0 1) 5 "tcp" 3000 80 (fun _ => False) "" "" "").
  goes ltac:(left; reflexivity); [new_flow|].
  intros ((_ & (_ & N) & _) & _). apply N. eexists. split; [left; reflexivity|]. split; [reflexivity|vm_compute; split; [discriminate|reflexivity]].
Qed.
Print Assumptions C35_exclusion_alone_refuted.
(** Protocols of both families: no rule at all. *)
Theorem C35_icmp_both_families_refuted : exists t p i, process_header ["mixed"; "input"] = Ok i /\ nft_traffic (header_families i) p /\ ~ p_option p "established" /\
  term_matches t p /\ t_action t = ["accept"] /\
  exists lines cs, nft_policy 100 [(mkNftHeader ["mixed"; "input"] [], [t])] = Ok lines /\ read_nft (join nl lines) = Some cs /\
    forall o, ~ nft_decides cs (header_table i, header_chain i 0) p o.
Proof.
  exists (set_protocol ["icmp"; "icmpv6"] (accept "t")), (npkt V6 1 5 "icmpv6" 0 0 (fun _ => False) "echo-request" "" ""). eexists.
  split; [vm_compute; reflexivity|]. split; [nseen|]. split; [cbn; tauto|]. split; [|split; [reflexivity|]].
  - assert (Z : forall x, ~ covered [] x) by (intros x (n & [] & _)).
    repeat split; try (left; reflexivity); try (intros ? []; fail); try apply Z; try (left; split; reflexivity); try (right; exists "icmpv6"; split; [right; left; reflexivity|reflexivity]).
    left. left. reflexivity.
  - eexists. eexists. split; [vm_compute; reflexivity|]. split; [read_nft_lines; reflexivity|]. intros o (b & x & c & E & (M & T) & _).
    revert E. read_nft_lines. intros E. destruct b as [|y [|z b]].
    + injection E as E _. subst x. inversion M as [|? ? X1 X2]; subst. destruct X1 as (? & [<-|[<-|[]]] & X1); exact X1.
    + injection E as _ E _. subst x. destruct T as (b' & x' & c' & E' & _). revert E'. read_nft_lines. intros E'. destruct b'; discriminate E'.
    + destruct b; discriminate E.
Qed.
Print Assumptions C35_icmp_both_families_refuted.
(** A comment of a header with a line break ends its line: what follows is read as a rule. *)
Theorem C35_header_comment_escapes_refuted : exists h t p i lines cs, process_header (nh_options h) = Ok i /\ t_action t = ["deny"] /\
  nft_policy 100 [(h, [t])] = Ok lines /\ read_nft (join nl lines) = Some cs /\ nft_traffic (header_families i) p /\ ~ p_option p "established" /\
  term_matches t p /\ nft_decides cs (header_table i, header_chain i 0) p "accept".
Proof.
  exists (mkNftHeader ["inet"; "input"] [append "edge filter: drop all, do not" (append nl "accept")]), nrest, (npkt V4 1 5 "tcp" 3000 80 (fun _ => False) "" "" "").
  eexists. eexists. eexists. split; [vm_compute; reflexivity|]. split; [reflexivity|]. split; [vm_compute; reflexivity|]. split; [read_nft_lines; reflexivity|]. split; [nseen|].
  split; [cbn; tauto|]. split.
  - assert (Z : forall x, ~ covered [] x) by (intros x (n & [] & _)).
    repeat split; try (left; reflexivity); try (intros ? []; fail); try apply Z; try (left; split; reflexivity). left. left. reflexivity.
  - unfold nft_decides. cbn [nchain_gives]. eexists [], _, _. split; [read_nft_lines; reflexivity|]. split; [|intros y a []]. split; [apply Forall_nil|reflexivity].
Qed.
Print Assumptions C35_header_comment_escapes_refuted.
(** A term with a name that nftables reserves: the text cannot be read. *)
Theorem C35_reserved_name_refuted : exists h t lines, nft_policy 100 [(h, [t])] = Ok lines /\ read_nft (join nl lines) = None.
Proof. exists (mkNftHeader ["inet"; "input"] []), (accept "drop"). eexists. split; [vm_compute; reflexivity|]. vm_compute. reflexivity. Qed.
Print Assumptions C35_reserved_name_refuted.

(** ** C62: the chain of a header is attached as its options say *)

Lemma header_loop_settings : forall n opts, (List.length opts <= n)%nat -> forall i r, header_loop opts i = Ok r ->
  exists ws vs, settings opts ws vs /\ last_value "base-chain-name" (ni_base i) vs (ni_base r) /\ last_value "table-name" (ni_table i) vs (ni_table r) /\
    (ni_regular r = true <-> ni_regular i = true \/ In "as-regular-chain" ws) /\
    (ni_override r = Some "bridge" <-> ni_override i = Some "bridge" \/ In "address-family-override" (map fst vs)).
Proof.
  assert (Lv : forall k d o x vs y, last_value k (if String.eqb o k then x else d) vs y -> last_value k d ((o, x) :: vs) y).
  { intros k d o x vs y [(a & b & -> & N)|(N & ->)]; [left; exists ((o, x) :: a), b; auto|]. destruct (String.eqb o k) eqn:E.
    - apply String.eqb_eq in E. subst o. left. exists [], vs. auto.
    - apply String.eqb_neq in E. right. split; [|reflexivity]. intros [X|X]; [exact (E X)|exact (N X)]. }
  induction n as [|n IH]; intros [|o rest] L i r H; cbn [List.length] in L; try lia; cbn [header_loop] in H.
  - apply ok_inj in H. subst. exists [], []. split; [constructor|]. split; [right; auto|]. split; [right; auto|]. cbn. intuition.
  - apply ok_inj in H. subst. exists [], []. split; [constructor|]. split; [right; auto|]. split; [right; auto|]. cbn. intuition.
  - destruct (String.eqb o "base-chain-name") eqn:E1.
    { apply String.eqb_eq in E1. subst o. destruct rest as [|x rest]; [discriminate H|]. apply IH in H; [|cbn in L; lia]. destruct H as (ws & vs & S1 & B & T & R & O).
      exists ws, (("base-chain-name", x) :: vs). split; [constructor; [cbn; auto|exact S1]|]. split; [apply Lv; exact B|]. split; [apply Lv; exact T|]. split; [exact R|].
      rewrite O. cbn [map fst ni_override]. split; [intros [X|X]; [auto|right; right; exact X]|intros [X|[X|X]]; [auto|discriminate X|auto]]. }
    destruct (String.eqb o "table-name") eqn:E2.
    { apply String.eqb_eq in E2. subst o. destruct rest as [|x rest]; [discriminate H|]. apply IH in H; [|cbn in L; lia]. destruct H as (ws & vs & S1 & B & T & R & O).
      exists ws, (("table-name", x) :: vs). split; [constructor; [cbn; auto|exact S1]|]. split; [apply Lv; exact B|]. split; [apply Lv; exact T|]. split; [exact R|].
      rewrite O. cbn [map fst ni_override]. split; [intros [X|X]; [auto|right; right; exact X]|intros [X|[X|X]]; [auto|discriminate X|auto]]. }
    destruct (String.eqb o "as-regular-chain") eqn:E3.
    { apply String.eqb_eq in E3. subst o. apply IH in H; [|lia]. destruct H as (ws & vs & S1 & B & T & R & O).
      exists ("as-regular-chain" :: ws), vs. split; [constructor; [cbn; intuition discriminate|exact S1]|]. split; [exact B|]. split; [exact T|]. split; [|exact O].
      split; [intros _; right; left; reflexivity|intros _; apply R; left; reflexivity]. }
    destruct (String.eqb o "address-family-override") eqn:E4.
    { apply String.eqb_eq in E4. subst o. destruct rest as [|x rest]; [discriminate H|]. destruct (String.eqb x "bridge") eqn:Ex; [|discriminate H]. apply String.eqb_eq in Ex. subst x.
      apply IH in H; [|cbn in L; lia]. destruct H as (ws & vs & S1 & B & T & R & O).
      exists ws, (("address-family-override", "bridge") :: vs). split; [constructor; [cbn; auto|exact S1]|]. split; [apply Lv; exact B|]. split; [apply Lv; exact T|]. split; [exact R|].
      split; [intros _; right; left; reflexivity|intros _; apply O; left; reflexivity]. }
    apply IH in H; [|lia]. destruct H as (ws & vs & S1 & B & T & R & O). exists (o :: ws), vs.
    apply String.eqb_neq in E1, E2, E3, E4. split; [constructor; [cbn; intuition congruence|exact S1]|]. split; [exact B|]. split; [exact T|]. split; [|exact O].
    rewrite R. cbn [In]. intuition congruence.
Qed.
(** What a header asks for, from its options: the family by the first, the hook by the second,
    the policy by the word ACCEPT, the priority by the only number, and names by the last
    value given. The word noverbose is set aside. *)
Theorem C62_header_options : forall opts i, process_header opts = Ok i ->
  exists af hook rest ws vs, opts = af :: hook :: rest /\ settings (if str_in "noverbose" opts then remove_first "noverbose" opts else opts) ws vs /\
    In (af, header_families i) [("inet", [V4]); ("inet6", [V6]); ("mixed", [V4; V6])] /\
    ni_hook i = lower hook /\ In (lower hook) ["forward"; "input"; "output"] /\
    (In "ACCEPT" opts /\ ni_policy i = "accept" \/ ~ In "ACCEPT" opts /\ ni_policy i = "drop") /\
    (filter isdigit opts = [ni_priority i] \/ filter isdigit opts = [] /\ ni_priority i = "0") /\
    last_value "base-chain-name" "root" vs (ni_base i) /\ last_value "table-name" "filtering_policies" vs (snd (header_table i)) /\
    (ni_regular i = true <-> In "as-regular-chain" ws) /\
    (In "address-family-override" (map fst vs) /\ fst (header_table i) = "bridge" \/
     ~ In "address-family-override" (map fst vs) /\ In (af, fst (header_table i)) [("inet", "ip"); ("inet6", "ip6"); ("mixed", "inet")]).
Proof.
  intros opts i H. destruct (header_spec opts i H) as (af & hook & rest & pr & E & A & B & C & D & F & G & K & L).
  assert (X : exists j, header_loop (if str_in "noverbose" opts then remove_first "noverbose" opts else opts) j = Ok i /\
    ni_base j = "root" /\ ni_table j = "filtering_policies" /\ ni_regular j = false /\ ni_override j = None).
  { unfold process_header in H. rewrite E in H. rewrite E. destruct (assoc af [("inet", "ip"); ("inet6", "ip6"); ("mixed", "inet")]) as [family|]; [|discriminate H].
    cbv zeta in H. destruct (negb (str_in (lower hook) ["forward"; "input"; "output"])); [discriminate H|].
    destruct (match filter isdigit (af :: hook :: rest) with [] => Ok "0" | [n] => Ok n | _ => Raise (Exn "HeaderError") end) as [q|]; [|discriminate H]. cbn [bind] in H.
    destruct (str_in "noverbose" (af :: hook :: rest)); (eexists; split; [exact H|]; auto). }
  destruct X as (j & Hj & J1 & J2 & J3 & J4). destruct (header_loop_settings _ _ (le_n _) j i Hj) as (ws & vs & S1 & Bn & Tn & R & O).
  rewrite J1 in Bn. rewrite J2 in Tn. rewrite J3 in R. rewrite J4 in O. exists af, hook, rest, ws, vs. split; [exact E|]. split; [exact S1|]. split; [|split; [exact B|split; [exact C|]]].
  - unfold header_families. destruct A as [(-> & ->)|[(-> & ->)|(-> & ->)]]; cbn; auto.
  - split; [|split; [|split; [exact Bn|split; [exact Tn|split]]]].
    + rewrite D. destruct (str_in "ACCEPT" opts) eqn:Ea; [left; split; [apply str_in_iff; exact Ea|reflexivity]|right; split; [apply str_in_false; exact Ea|reflexivity]].
    + rewrite F. exact G.
    + rewrite R. intuition discriminate.
    + unfold header_table. cbn [fst]. destruct L as [L|L]; rewrite L.
      * right. split; [intros I; rewrite (proj2 O (or_intror I)) in L; discriminate L|]. destruct A as [(-> & ->)|[(-> & ->)|(-> & ->)]]; cbn; auto.
      * left. split; [|reflexivity]. destruct (proj1 O L) as [Y|Y]; [discriminate Y|exact Y].
Qed.
Print Assumptions C62_header_options.
Example C62_options_example : exists i, process_header ["mixed"; "INPUT"; "150"; "table-name"; "edge"; "noverbose"; "ACCEPT"; "address-family-override"; "bridge"] = Ok i /\
  header_table i = ("bridge", "edge") /\ header_chain i 3 = "root3" /\ header_base i = [Base "input" 150 "accept"].
Proof. eexists. repeat split. Qed.
(** In the text, the chain of a header has one line for the hook, with the priority and the
    policy; none if the header asks for a regular chain. *)
Theorem C62_chain_attached : forall today fs lines, nft_policy today fs = Ok lines -> nft_policy_ok today fs ->
  exists cs, read_nft (join nl lines) = Some cs /\
    forall n h terms i, nth_error fs n = Some (h, terms) -> process_header (nh_options h) = Ok i ->
      exists priority, numeral_value (ni_priority i) = Some priority /\
      forall hook k policy, In (Base hook k policy) (contents_at (header_table i, header_chain i n) cs) <->
        ni_regular i = false /\ hook = ni_hook i /\ k = priority /\ policy = ni_policy i.
Proof.
  intros today fs lines H OK. destruct (nft_policy_exact today fs lines H OK) as (cs & R & _ & _ & K). exists cs. split; [exact R|].
  intros n h terms i E E'. destruct (K n h terms i E E') as (F & _). destruct (isdigit_value _ (ig_priority _ (header_good _ _ E'))) as (q & Q). exists q. split; [exact Q|].
  intros hook k policy. unfold header_base in F. rewrite Q in F. split.
  - intros I. assert (I' : In (Base hook k policy) (filter (fun x => match x with Base _ _ _ => true | _ => false end) (contents_at (header_table i, header_chain i n) cs))) by (apply filter_In; auto).
    rewrite F in I'. destruct (ni_regular i); [destruct I'|]. destruct I' as [X|[]]. injection X as <- <- <-. auto.
  - intros (Rg & -> & -> & ->). rewrite Rg in F. assert (I' : In (Base (ni_hook i) q (ni_policy i)) (filter (fun x => match x with Base _ _ _ => true | _ => false end) (contents_at (header_table i, header_chain i n) cs))) by (rewrite F; left; reflexivity).
    apply filter_In in I'. apply I'.
Qed.
Print Assumptions C62_chain_attached.
Example C62_example : nft_policy_ok 100 twon /\ nth_error twon 0 = Some (head6, [nold; nweb; nping; nrest]) /\
  exists i, process_header (nh_options head6) = Ok i /\ ni_regular i = false /\ ni_hook i = "input" /\ numeral_value (ni_priority i) = Some 150 /\ ni_policy i = "drop".
Proof. split; [exact (proj1 C35_example)|]. split; [reflexivity|]. eexists. split; [reflexivity|]. repeat split. Qed.
(** A negative priority is not seen as a number, and silently becomes 0. *)
Theorem C62_negative_priority_refuted : exists opts i, In "-150" opts /\ process_header opts = Ok i /\ header_base i = [Base "input" 0 "drop"].
Proof. exists ["inet"; "input"; "-150"]. eexists. split; [cbn; auto|]. split; reflexivity. Qed.
Print Assumptions C62_negative_priority_refuted.

(** ** C63: rulesets load *)

(** Chains that rules call exist in the same table, and no chain is written twice: for
    policies in which the headers of a table do not share names. *)
Theorem C63_ruleset_loads_partial : forall today fs lines, nft_policy today fs = Ok lines -> nft_policy_ok today fs ->
  exists cs, read_nft (join nl lines) = Some cs /\ jumps_exist cs /\ chains_once cs.
Proof. intros today fs lines H OK. destruct (nft_policy_exact today fs lines H OK) as (cs & R & J & C & _). exists cs. auto. Qed.
Print Assumptions C63_ruleset_loads_partial.
Example C63_example : nft_policy_ok 100 twon /\ exists lines cs, nft_policy 100 twon = Ok lines /\ read_nft (join nl lines) = Some cs /\
  In ("inet", "edge", "ping", Made) cs.
Proof.
  split; [exact (proj1 C35_example)|]. eexists. eexists. split; [vm_compute; reflexivity|]. split; [read_nft_lines; reflexivity|].
  repeat (first [left; reflexivity|right]).
Qed.
(** Two headers of one table with a term of the same name: its chain is written twice, and
    holds the rules of both. *)
Theorem C63_same_term_name_refuted : exists fs lines cs, nft_policy 100 fs = Ok lines /\ read_nft (join nl lines) = Some cs /\ ~ chains_once cs /\
  exists i p, process_header ["inet"; "input"] = Ok i /\ nth_error fs 1 = Some (mkNftHeader ["inet"; "output"] [], [set_protocol ["udp"] nrest]) /\
    nft_traffic (header_families i) p /\ p_proto p = "tcp" /\
    nft_decides cs ("ip", "filtering_policies", "root1") p "drop".
Proof.
  exists [(mkNftHeader ["inet"; "input"] [], [set_protocol ["tcp"] nrest]); (mkNftHeader ["inet"; "output"] [], [set_protocol ["udp"] nrest])]. eexists. eexists.
  split; [vm_compute; reflexivity|]. split; [read_nft_lines; reflexivity|]. split.
  - intros N. vm_compute in N. inversion N as [|? ? N1 N2]; subst. apply N1. cbn. auto.
  - eexists. exists (npkt V4 1 5 "tcp" 3000 80 (fun _ => False) "" "" ""). split; [vm_compute; reflexivity|]. split; [reflexivity|]. split; [nseen|]. split; [reflexivity|].
    eapply through; [read_nft_lines; reflexivity|not_reply|apply Forall_nil|reflexivity|read_nft_lines; left; reflexivity| |read_nft_lines; repeat (apply Forall_cons; [reflexivity|]); apply Forall_nil].
    unfold nmeets. cbn [nr_conditions]. repeat (apply Forall_cons || apply Forall_nil); [|new_flow..]. split; [reflexivity|]. eexists. split; [left; reflexivity|reflexivity].
Qed.
Print Assumptions C63_same_term_name_refuted.
(** The names of headers can collide although they differ: a1 with number 0 and a with number
    10. Then the first header is lost. *)
Definition filler : nft_header * list term := (mkNftHeader ["inet6"; "input"] [], []).
Definition colliding : list (nft_header * list term) :=
  (mkNftHeader ["inet"; "input"; "base-chain-name"; "a1"] [], [accept "first"]) :: repeat filler 9 ++
  [(mkNftHeader ["inet"; "input"; "base-chain-name"; "a"] [], [accept "second"])].
Theorem C63_headers_collide_refuted : exists lines cs, nft_policy 100 colliding = Ok lines /\ read_nft (join nl lines) = Some cs /\
  In ("ip", "filtering_policies", "second", Made) cs /\ ~ In ("ip", "filtering_policies", "first", Made) cs.
Proof.
  eexists. eexists. split; [vm_compute; reflexivity|]. split; [read_nft_lines; reflexivity|]. split; [cbn [In]; repeat (first [left; reflexivity|right])|].
  cbn [In]. intros X. repeat (destruct X as [X|X]; [discriminate X|]). exact X.
Qed.
Print Assumptions C63_headers_collide_refuted.

(** ** C40: expired terms *)

Lemma select_valid i today : forall terms seen seen' chains, incl seen' seen -> nft_select i today seen terms = Ok chains ->
  nft_select i today seen' (filter (valid_on today) terms) = Ok chains.
Proof.
  induction terms as [|t rest IH]; intros seen seen' chains S H; [exact H|]. cbn [nft_select] in H. cbn [filter].
  destruct (str_in (t_name t) seen) eqn:Sn; [discriminate H|].
  assert (Sn' : str_in (t_name t) seen' = false) by (apply str_in_false; intros I; apply str_in_false in Sn; apply Sn, S, I).
  destruct (given (t_source_interface t) && given (t_destination_interface t)) eqn:G; [discriminate H|].
  assert (S1 : incl seen' (t_name t :: seen)) by (intros x I; right; apply S, I).
  assert (S2 : incl (t_name t :: seen') (t_name t :: seen)) by (intros x [->|I]; [left; reflexivity|right; apply S, I]).
  rewrite valid_on_expired. destruct (expired today t) eqn:Ex.
  - cbn [negb]. apply (IH (t_name t :: seen)); [exact S1|]. revert H. rewrite orb_true_r. cbn [orb]. auto.
  - cbn [negb nft_select]. rewrite Sn', G, Ex. revert H.
    destruct (t_stateless_reply t || str_in "established" (t_option t) || str_in "tcp-established" (t_option t) || false || negb (active_on "nftables" t)).
    + apply IH; exact S2.
    + destruct (remove_all (t_source_address t) (t_source_address_exclude t)) as [src|]; cbn [bind]; [|discriminate].
      destruct (remove_all (t_destination_address t) (t_destination_address_exclude t)) as [dst|]; cbn [bind]; [|discriminate].
      destruct (ruleset (families (ni_af i)) (ni_verbose i) (set_source_address src (set_destination_address dst t))) as [rules|]; cbn [bind]; [|discriminate].
      destruct (nft_select i today (t_name t :: seen) rest) as [more|] eqn:Em; cbn [bind]; [|discriminate]. rewrite (IH _ _ _ S2 Em). auto.
Qed.
(** Without its expired terms a policy gives the same ruleset. *)
Theorem C40_expired_never_rendered_nftables : forall today fs lines, nft_policy today fs = Ok lines ->
  nft_policy today (map (fun f => (fst f, filter (valid_on today) (snd f))) fs) = Ok lines.
Proof.
  intros today fs lines. unfold nft_policy. assert (K : forall fs n es, nft_translate today n fs = Ok es ->
    nft_translate today n (map (fun f => (fst f, filter (valid_on today) (snd f))) fs) = Ok es).
  { clear. induction fs as [|(h, terms) rest IH]; intros n es H; [exact H|]. cbn [nft_translate map fst snd] in *.
    destruct (process_header (nh_options h)) as [i|]; cbn [bind] in *; [|discriminate H].
    destruct (nft_select i today [] terms) as [chains|] eqn:Es; cbn [bind] in H; [|discriminate H]. rewrite (select_valid i today terms [] [] chains (incl_refl _) Es). cbn [bind].
    destruct (nft_translate today (n + 1) rest) as [more|] eqn:Em; cbn [bind] in H; [|discriminate H]. rewrite (IH _ _ Em). exact H. }
  destruct (nft_translate today 0 fs) as [es|] eqn:E; cbn [bind]; [|discriminate]. rewrite (K fs 0 es E). auto.
Qed.
Print Assumptions C40_expired_never_rendered_nftables.
Example C40_nftables_example : filter (valid_on 100) [nold; nweb] = [nweb] /\ filter (valid_on 99) [nold; nweb] = [nold; nweb] /\ exists lines, nft_policy 100 twon = Ok lines.
Proof. split; [reflexivity|]. split; [reflexivity|]. eexists. exact (proj1 (proj2 C35_example)). Qed.

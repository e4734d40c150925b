(** Theorems C95: Junos Evo filters (juniperevo.py). *)
From Coq Require Import Lia ZifyBool ZifyNat.
From Verif Require Import SpecEvo BaseFacts EvoProofs.
Local Open Scope string_scope.
Local Open Scope list_scope.
Local Open Scope Z_scope.

(** ** C95: the conditions on protocols are written as documented *)

(** With a direction, a term of an IPv6 filter is left out exactly if ICMP is its only protocol; otherwise its
    conditions can be read, and each protocol has the keyword and the word of the table of the documentation
    for the direction and the interface.  Missing for the full claim: the terms of the refutations below. *)
Theorem C95_conditions_as_documented_partial : forall opts ps es,
  In "ingress" opts \/ In "egress" opts -> evo_list_ok opts ps -> evo_list_ok opts es ->
  match evo_lines opts ps es with
  | Ok None => ps <> [] /\ of_ipv6 ps = []
  | Ok (Some lines) => (ps <> [] -> of_ipv6 ps <> []) /\
      exists a b, statements lines = Some (a ++ b) /\ condition opts "" (of_ipv6 ps) a /\ condition opts "-except" es b
  | Raise _ => False
  end.
Proof. exact evo_spec. Qed.
Print Assumptions C95_conditions_as_documented_partial.
(** Without a direction the filter is refused, whatever the protocols. *)
Theorem C95_direction_required : forall opts ps es, ~ In "ingress" opts -> ~ In "egress" opts -> exists e, evo_lines opts ps es = Raise e.
Proof.
  intros opts ps es A B. unfold evo_lines. destruct (juniper_init (map PName ps)) as [qs|e]; [|eexists; reflexivity]. cbn [bind].
  unfold evo_match, evo_direction. rewrite <- str_in_spec in A. rewrite <- str_in_spec in B.
  destruct (str_in "ingress" opts); [destruct A; reflexivity|]. destruct (str_in "egress" opts); [destruct B; reflexivity|]. eexists. reflexivity.
Qed.
Print Assumptions C95_direction_required.

Ltac evo_ok := constructor;
  [intros q J; cbn in J; repeat (destruct J as [<-|J]; [apply str_in_spec; reflexivity|]); destruct J
  |repeat constructor; cbn; intuition discriminate|cbn; intuition discriminate|].
Example C95_example :
  (evo_list_ok ["inet6"; "ingress"] ["tcp"; "icmp"; "icmpv6"; "ipip"] /\ evo_list_ok ["inet6"; "ingress"] ["fragment"] /\
   evo_lines ["inet6"; "ingress"] ["tcp"; "icmp"; "icmpv6"; "ipip"] ["fragment"] = Ok (Some ["payload-protocol [ tcp icmp6 4 ];"; "next-header-except fragment;"])) /\
  (evo_list_ok ["inet6"; "ingress"; "loopback"] ["hopopt"; "fragment"; "udp"] /\ evo_list_ok ["inet6"; "ingress"; "loopback"] [] /\
   evo_lines ["inet6"; "ingress"; "loopback"] ["hopopt"; "fragment"; "udp"] [] = Ok (Some ["payload-protocol [ 0 44 udp ];"])) /\
  evo_lines ["inet6"; "ingress"] ["hopopt"; "fragment"] [] = Ok (Some ["next-header [ hop-by-hop fragment ];"]) /\
  evo_lines ["inet6"; "egress"] ["hopopt"] [] = Ok (Some ["payload-protocol 0;"]) /\ evo_lines ["inet6"; "egress"] ["icmp"] [] = Ok None.
Proof.
  split; [|split; [|vm_compute; auto]].
  - split; [evo_ok; intros _; right; intros q J X; cbn in J; repeat (destruct J as [<-|J]; [cbn in X; intuition discriminate|]); destruct J|].
    split; [evo_ok; intros _; left; intros q [<-|[]]; cbn; auto|reflexivity].
  - split; [|split; [|reflexivity]]; evo_ok; intros (_ & [X|X]); try (cbn in X; intuition discriminate); destruct X; cbn; auto.
Qed.

(** *** Terms that are written differently *)
(** No word of the lines is the documented one for the protocol. *)
Definition evo_wrong (opts ps : list string) (q : string) : Prop := exists key ws,
  (exists lines, evo_lines opts ps [] = Ok (Some lines) /\ statements lines = Some [Leaf (key :: ws)]) /\
  In q ps /\ forall w, In w (values ws) -> ~ documented opts key q w.
Lemma route_no_number w : documented ["inet6"; "egress"] "payload-protocol" "ipv6-route" w -> w = "43".
Proof.
  intros [(_ & (X & _) & _)|[(_ & _ & _ & n & I & ->)|(X & _)]].
  - cbn in X. intuition discriminate.
  - cbn in I. repeat (destruct I as [I|I]; [first [discriminate I|injection I as <-; reflexivity]|]). destruct I.
  - destruct X. cbn. auto.
Qed.
(** Payload in a term with an extension header, coming in on a physical interface: only packets without
    extension headers are matched. *)
Theorem C95_mixed_list_refuted : evo_wrong ["inet6"; "ingress"] ["hopopt"; "tcp"] "tcp".
Proof.
  exists "next-header", ["["; "hop-by-hop"; "tcp"; "]"]. split; [eexists; split; vm_compute; reflexivity|]. split; [right; left; reflexivity|].
  intros w _ [(X & _)|[(_ & _ & X & _)|(_ & X & _)]]; [cbn in X; intuition discriminate|discriminate X|discriminate X].
Qed.
Print Assumptions C95_mixed_list_refuted.
(** Routing headers are written by the name of the policy language, as payload, in both directions. *)
Theorem C95_routing_refuted : evo_wrong ["inet6"; "ingress"] ["ipv6-route"] "ipv6-route" /\ evo_wrong ["inet6"; "egress"] ["ipv6-route"] "ipv6-route".
Proof.
  split; exists "payload-protocol", ["ipv6-route"]; (split; [eexists; split; vm_compute; reflexivity|]); (split; [left; reflexivity|]); intros w [<-|[]] X.
  - destruct X as [(_ & _ & X & _)|[(_ & X & _)|(X & _)]]; [discriminate X| |destruct X; cbn; auto].
    apply X. split; [cbn; auto|]. right. cbn. intuition discriminate.
  - apply route_no_number in X. discriminate X.
Qed.
Print Assumptions C95_routing_refuted.
(** Printing a term changes the table of protocols all generators share: a name other platforms refuse before
    is accepted afterwards. *)
Theorem C95_history_refuted : evo_accepts proto_map [PName "hop-by-hop"] = false /\ evo_accepts (evo_shared proto_map) [PName "hop-by-hop"] = true /\
  (forall ps, (exists qs, juniper_init ps = Ok qs) <-> evo_accepts proto_map ps = true).
Proof.
  split; [reflexivity|]. split; [reflexivity|]. intros ps. unfold juniper_init, evo_accepts.
  destruct (forallb _ ps); split; try reflexivity; try discriminate; [intros _; eexists; reflexivity|intros (qs & X); discriminate X].
Qed.
Print Assumptions C95_history_refuted.

(** Theorems C92: address sets (ipset.py). *)
From Coq Require Import Lia.
From Verif Require Import Samples BaseFacts PyStrFacts TextProofs GceProofs IptAddr IpsetPolicy.
From Verif Require Import PropsPolicy PropsIptables SpecIpset.
Local Open Scope string_scope.
Local Open Scope list_scope.
Local Open Scope Z_scope.

(** ** C92: sets hold, and rules match, the addresses of their terms *)

(** The commands run without failure, and with the sets they make, the address conditions of the
    rules of a term are met by exactly the pairs of addresses, of the family of its filter, that
    the term is about.  Missing for the full claim: terms of one family whose names have the
    same first characters (refuted below), and the rest of the rules. *)
Theorem C92_sets_match_as_terms_partial : forall exists_option ts,
  (forall v t, In (v, t) ts -> set_term_ok t) ->
  NoDup (map (fun vt => (fst vt, name_start (fst vt) (t_name (snd vt)))) ts) ->
  exists ls sets, set_section exists_option ts = Ok ls /\ ks_run [] ls = Some sets /\
    forall v t, In (v, t) ts -> exists conds, set_conditions v t = Ok conds /\
      forall x y, fst x = v /\ 0 <= snd x < 2 ^ width v -> fst y = v /\ 0 <= snd y < 2 ^ width v ->
        (exists s d, In (s, d) conds /\ condition_says sets "-s" "src" s x /\ condition_says sets "-d" "dst" d y) <->
        side_matches (t_source_address t) (t_source_address_exclude t) x /\
        side_matches (t_destination_address t) (t_destination_address_exclude t) y.
Proof. exact sets_say. Qed.
Print Assumptions C92_sets_match_as_terms_partial.

Definition sweb : term :=
  set_source_address [v4 10 0 0 0 8; v4 192 168 0 0 16; v6 db8 32] (set_source_address_exclude [v4 10 1 0 0 16]
    (set_destination_address [v4 172 16 0 1 32; v6 (db8 + 1) 33; plain V6 ((db8 + 1) * 2 ^ 96 + 2 ^ 95) 33] (accept "web"))).
Definition srest : term := set_source_address_exclude [v4 10 0 0 0 8] (set_action ["deny"] (blank "a-term-with-a-name-of-more-than-31-characters")).
Definition sall : list (ver * term) := [(V4, sweb); (V6, sweb); (V4, srest)].
(** the hypotheses are met *)
Example C92_example : exists ls, set_section true sall = Ok ls /\
  (forall v t, In (v, t) sall -> set_term_ok t) /\
  NoDup (map (fun vt => (fst vt, name_start (fst vt) (t_name (snd vt)))) sall) /\
  In "create -exist web-dst-v6 hash:net family inet6 hashsize 4 maxelem 4" ls /\
  In "add -exist web-src 192.168.0.0/16" ls /\ In "add -exist a-term-with-a-name-of-more--src 128.0.0.0/1" ls /\
  (exists conds, set_conditions V4 sweb = Ok conds /\ In ("-m set --match-set web-src src", "-d 172.16.0.1/32") conds) /\
  (exists conds, set_conditions V4 srest = Ok conds /\ In ("-m set --match-set a-term-with-a-name-of-more--src src", "") conds).
Proof.
  eexists. split; [vm_compute; reflexivity|]. split; [|split; [|split; [|split; [|split; [|split]]]]].
  - assert (disj : forall a b, (nver a <> nver b \/ naddr a + size a <= naddr b \/ naddr b + size b <= naddr a) -> disjoint a b).
    { intros a b H x (E1 & R1) (E2 & R2). destruct H as [H|H]; [congruence|lia]. }
    intros v t I. cbn in I. assert (E : t = sweb \/ t = srest) by (destruct I as [I|[I|[I|[]]]]; injection I as _ <-; auto).
    destruct E as [-> | ->]; (split; [reflexivity|]; split; [discriminate|]; split; [discriminate|]; split; (split; [valid_tac|split; [valid_tac|]])); repeat constructor;
      apply disj; vm_compute; intuition (congruence || auto).
  - repeat constructor; cbn; intuition discriminate.
  - vm_compute; tauto.
  - vm_compute; tauto.
  - vm_compute; tauto.
  - eexists. split; [vm_compute; reflexivity|vm_compute; tauto].
  - eexists. split; [vm_compute; reflexivity|vm_compute; tauto].
Qed.

(** Every set name fits. *)
Theorem C92_set_names_fit : forall v name direction, direction = "src" \/ direction = "dst" ->
  (String.length (ipset_name v name direction) <= 31)%nat.
Proof. exact IpsetProofs.ipset_name_fits. Qed.
Print Assumptions C92_set_names_fit.

Definition one_of (name : string) (a b : net) : term := set_source_address [a; b] (accept name).
Definition shared : list (ver * term) :=
  [(V4, one_of "allow-management-hosts-in-the-lab" (v4 10 0 0 0 24) (v4 10 0 2 0 24));
   (V4, one_of "allow-management-hosts-in-the-office" (v4 192 0 2 1 32) (v4 192 0 2 3 32))].
(** Long names that begin alike: the same set is made twice, which is refused. *)
Theorem C92_long_names_refuted : exists ls, set_section false shared = Ok ls /\
  (forall v t, In (v, t) shared -> set_term_ok t) /\ NoDup (map (fun vt => t_name (snd vt)) shared) /\ ks_run [] ls = None.
Proof.
  eexists. split; [vm_compute; reflexivity|]. split; [|split; [repeat constructor; cbn; intuition discriminate|vm_compute; reflexivity]].
  intros v t I. assert (disj : forall a b, (naddr a + size a <= naddr b \/ naddr b + size b <= naddr a) -> disjoint a b).
  { intros a b H x (E1 & R1) (E2 & R2). lia. }
  cbn in I. destruct I as [I|[I|[]]]; injection I as _ <-; (split; [reflexivity|]; split; [discriminate|]; split; [discriminate|]; split; (split; [valid_tac|split; [valid_tac|]]));
    repeat constructor; apply disj; vm_compute; intuition (congruence || auto).
Qed.
Print Assumptions C92_long_names_refuted.
(** With the option exists it is not refused, and the two terms share one set: each then matches
    the addresses of the other. *)
Theorem C92_merged_sets_refuted : exists ls sets conds x t, set_section true shared = Ok ls /\ ks_run [] ls = Some sets /\
  In (V4, t) shared /\ set_conditions V4 t = Ok conds /\
  (exists s d, In (s, d) conds /\ condition_says sets "-s" "src" s x /\ condition_says sets "-d" "dst" d (V4, 0)) /\
  ~ side_matches (t_source_address t) (t_source_address_exclude t) x.
Proof.
  eexists. eexists. eexists. exists (V4, ten 0 0 0 + 5), (snd (nth 1 shared (V4, sweb))). split; [vm_compute; reflexivity|]. split; [vm_compute; reflexivity|].
  split; [right; left; reflexivity|]. split; [vm_compute; reflexivity|]. split.
  - eexists. eexists. split; [left; reflexivity|]. split; [|left; reflexivity]. right. right. eexists. split; [vm_compute; reflexivity|].
    eexists. exists "10.0.0.0/24". split; [left; reflexivity|]. split; [reflexivity|]. split; [left; reflexivity|].
    exists (ten 0 0 0), 24. vm_compute. repeat split; congruence.
  - intros ([X|(n & I & C)] & _); [discriminate X|]. cbn in I. destruct I as [<-|[<-|[]]]; destruct C as (_ & C); vm_compute in C; intuition congruence.
Qed.
Print Assumptions C92_merged_sets_refuted.
(** So do terms of the same name in two filters of one family. *)
Theorem C92_two_filters_refuted : exists ls, set_section false [(V4, one_of "web" (v4 10 0 0 0 24) (v4 10 0 2 0 24)); (V4, one_of "web" (v4 192 0 2 1 32) (v4 192 0 2 3 32))] = Ok ls /\
  ks_run [] ls = None.
Proof. eexists. split; vm_compute; reflexivity. Qed.
Print Assumptions C92_two_filters_refuted.

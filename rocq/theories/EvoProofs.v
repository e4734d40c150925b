(** Proofs about Junos Evo conditions. *)
From Coq Require Import Lia ZifyBool ZifyNat.
From Verif Require Import SpecEvo BaseFacts PyStrFacts TextProofs CiscoProofs JuniperText JuniperProofs.
Local Open Scope string_scope.
Local Open Scope list_scope.
Local Open Scope Z_scope.

(** ** Lists without repetitions *)

Lemma replace_map a b (f : string -> pval) l : NoDup l -> (forall q, In q l -> pval_is a (f q) = true -> q = a) ->
  replace_first a b (map f l) = map (fun q => if pval_is a (f q) then PName b else f q) l.
Proof.
  induction l as [|x l IH]; intros N H; [reflexivity|]. inversion N as [|? ? X N']; subst. cbn [map replace_first].
  destruct (pval_is a (f x)) eqn:E.
  - f_equal. apply map_ext_in. intros q I. destruct (pval_is a (f q)) eqn:F; [|reflexivity]. exfalso. apply X.
    rewrite (H x (or_introl eq_refl) E), <- (H q (or_intror I) F). exact I.
  - f_equal. apply IH; [exact N'|]. intros q I. apply H. right. exact I.
Qed.
Lemma remove_map a (f : string -> pval) l : NoDup l -> (forall q, In q l -> pval_is a (f q) = String.eqb q a) ->
  remove_pval a (map f l) = map f (filter (fun q => negb (String.eqb q a)) l).
Proof.
  induction l as [|x l IH]; intros N H; [reflexivity|]. inversion N as [|? ? X N']; subst. cbn [map remove_pval filter].
  rewrite (H x (or_introl eq_refl)). destruct (String.eqb x a) eqn:E; cbn [negb].
  - apply String.eqb_eq in E. subst a. f_equal. symmetry. clear - X. induction l as [|y l IH]; [reflexivity|]. cbn [filter].
    destruct (String.eqb y x) eqn:F; [apply String.eqb_eq in F; subst y; destruct X; left; reflexivity|]. cbn [negb]. f_equal. apply IH. intros I. apply X. right. exact I.
  - cbn [map]. f_equal. apply IH; [exact N'|]. intros q I. apply H. right. exact I.
Qed.

(** ** Reading *)

Lemma group_renders k l : plain_word k -> plain_words l -> renders (group_line k l) (match l with [] => [] | _ => [Leaf (k :: gw l)] end) /\
  forallb stmt_ok (match l with [] => [] | _ => [Leaf (k :: gw l)] end) = true.
Proof.
  intros K P. unfold group_line. destruct l as [|x l]; [split; [apply renders_nil|reflexivity]|].
  cbn [some]. set (m := x :: l) in *. assert (N : m <> []) by discriminate. clearbody m. split.
  - apply renders_line. change (stmt_toks (Leaf (k :: gw m))) with ((k :: gw m) ++ [";"]). cbn [app]. apply chunk_key; [exact K|apply chunk_group; assumption].
  - cbn [forallb stmt_ok]. rewrite (plain_ok _ K), (gw_ok _ P). reflexivity.
Qed.
Lemma renders_statements lines l : renders lines l -> forallb stmt_ok l = true -> statements lines = Some l.
Proof.
  intros R O. unfold statements. change (text_of lines) with (cat lines ""). rewrite (R ""). rewrite read_stmts by exact O.
  cbn [SpecJuniper.tokens flush is_empty read]. rewrite app_nil_r, rev_involutive. reflexivity.
Qed.

(** ** Words *)

(** Protocols after __init__, where ipip is a number in the first list only; the words of both lists. *)
Definition w0 (main : bool) (q : string) : pval := if main && String.eqb q "ipip" then PNum 4 else PName q.
Definition w1 (main : bool) (q : string) : pval := if pval_is "hopopt" (w0 main q) then PName "hop-by-hop" else w0 main q.
Definition w2 (main near : bool) (q : string) : pval := if near then w1 main q else evo_number (w1 main q).
Definition w3 (main near : bool) (q : string) : pval := if pval_is "icmpv6" (w2 main near q) then PName "icmp6" else w2 main near q.
Definition ext (q : string) : bool := str_in q ["hopopt"; "fragment"].

Lemma known_ind (P : string -> Prop) : Forall P (map fst proto_map) -> forall q, In q (map fst proto_map) -> P q.
Proof. intros F q I. rewrite Forall_forall in F. auto. Qed.
Lemma w_hop main q : In q (map fst proto_map) -> pval_is "hopopt" (w0 main q) = true -> q = "hopopt".
Proof. revert q. apply (known_ind (fun q => pval_is "hopopt" (w0 main q) = true -> q = "hopopt")). destruct main; repeat (apply Forall_cons; [cbn; congruence|]); apply Forall_nil. Qed.
Lemma w_icmp main near q : In q (map fst proto_map) -> pval_is "icmp" (w2 main near q) = String.eqb q "icmp".
Proof. revert q. apply (known_ind (fun q => pval_is "icmp" (w2 main near q) = String.eqb q "icmp")). destruct main, near; repeat constructor. Qed.
Lemma w_icmp6 main near q : In q (map fst proto_map) -> pval_is "icmpv6" (w2 main near q) = true -> q = "icmpv6".
Proof. revert q. apply (known_ind (fun q => pval_is "icmpv6" (w2 main near q) = true -> q = "icmpv6")). destruct main, near; repeat (apply Forall_cons; [cbn; congruence|]); apply Forall_nil. Qed.
Lemma w_plain main near q : In q (map fst proto_map) -> plain_word (pval_text (w3 main near q)).
Proof. revert q. apply (known_ind (fun q => plain_word (pval_text (w3 main near q)))). destruct main, near; repeat (apply Forall_cons; [split; [discriminate|reflexivity]|]); apply Forall_nil. Qed.
Lemma w_any main q : In q (map fst proto_map) -> existsb (fun h => pval_is h (w1 main q)) evo_headers = ext q.
Proof. revert q. apply (known_ind (fun q => existsb (fun h => pval_is h (w1 main q)) evo_headers = ext q)). destruct main; repeat constructor. Qed.
Definition numbered (q : string) (w : string) : bool := existsb (fun kv => String.eqb (fst kv) q && String.eqb w (dec (snd kv))) proto_map.
Lemma numbered_spec q w : numbered q w = true -> exists n, In (q, n) proto_map /\ w = dec n.
Proof.
  intros H. apply existsb_exists in H. destruct H as ((k, n) & I & E). apply andb_true_iff in E. cbn [fst snd] in E. destruct E as (A & B).
  apply String.eqb_eq in A. apply String.eqb_eq in B. subst. eauto.
Qed.
Lemma w_payload main near q : In q (map fst proto_map) -> ext q = false -> payload_word q (pval_text (w3 main near q)).
Proof.
  intros I E. set (H0 q := (String.eqb (pval_text (w3 main near q)) q || (String.eqb q "icmpv6" && String.eqb (pval_text (w3 main near q)) "icmp6"))
    || numbered q (pval_text (w3 main near q))). assert (H : H0 q = true).
  { revert q I E. apply (known_ind (fun q => ext q = false -> H0 q = true)). subst H0. cbv beta. destruct main, near; repeat (apply Forall_cons; [vm_compute; auto|]); apply Forall_nil. }
  subst H0. cbv beta in H. apply orb_true_iff in H. destruct H as [H|H]; [|right; right; apply numbered_spec, H].
  apply orb_true_iff in H. destruct H as [H|H]; [left; apply String.eqb_eq, H|]. apply andb_true_iff in H. destruct H as (A & B).
  right. left. split; apply String.eqb_eq; assumption.
Qed.
Lemma w_near main q : ext q = true -> pval_text (w3 main true q) = header_name q.
Proof. intros E. apply str_in_spec in E. destruct E as [<-|[<-|[]]]; destruct main; reflexivity. Qed.
Lemma w_far main q : ext q = true -> exists n, In (q, n) proto_map /\ pval_text (w3 main false q) = dec n.
Proof. intros E. apply numbered_spec. apply str_in_spec in E. destruct E as [<-|[<-|[]]]; destruct main; reflexivity. Qed.
Lemma ext_spec q : q <> "ipv6-route" -> (ext q = true <-> extension q).
Proof. intros N. unfold ext, extension. rewrite str_in_spec. cbn. intuition congruence. Qed.

(** ** Keywords *)

Definition near_of (opts : list string) : bool := str_in "ingress" opts && (str_in "physical" opts || negb (str_in "loopback" opts)).
Lemma near_spec opts : near_of opts = true <-> from_wire opts.
Proof.
  unfold near_of, from_wire. rewrite andb_true_iff, orb_true_iff, negb_true_iff, !str_in_spec.
  assert (E : str_in "loopback" opts = false <-> ~ In "loopback" opts) by (rewrite <- str_in_spec; destruct (str_in "loopback" opts); intuition congruence).
  rewrite E. tauto.
Qed.
Lemma any_words main l : (forall q, In q l -> In q (map fst proto_map)) -> evo_any (map (w1 main) l) = existsb ext l.
Proof.
  intros K. unfold evo_any. cbn [existsb evo_headers]. induction l as [|x l IH]; [reflexivity|]. cbn [map existsb].
  rewrite <- IH by (intros; apply K; right; assumption). rewrite <- (w_any main x) by (apply K; left; reflexivity). cbn [existsb evo_headers].
  destruct (pval_is "hop-by-hop" (w1 main x)), (pval_is "fragment" (w1 main x)), (existsb (pval_is "hop-by-hop") (map (w1 main) l)); reflexivity.
Qed.
Definition key_of (near : bool) (l : list string) : string := if near && existsb ext l then "next-header" else "payload-protocol".
Lemma key_plain near l : plain_word (key_of near l) /\ plain_word (append (key_of near l) "-except").
Proof. unfold key_of. destruct (near && existsb ext l); split; split; (discriminate || reflexivity). Qed.
Lemma match_words opts m e : (forall q, In q m -> In q (map fst proto_map)) -> (forall q, In q e -> In q (map fst proto_map)) ->
  In "ingress" opts \/ In "egress" opts ->
  evo_match opts (map (w1 true) m) (map (w1 false) e) =
  Ok ((key_of (near_of opts) m, append (key_of (near_of opts) e) "-except"), (map (w2 true (near_of opts)) m, map (w2 false (near_of opts)) e)).
Proof.
  intros Km Ke D. unfold evo_match, evo_direction, evo_interface, near_of, key_of. rewrite !any_words by assumption.
  rewrite <- !str_in_spec in D. rewrite !map_map. unfold w2.
  destruct (str_in "ingress" opts); cbn [String.eqb Ascii.eqb Bool.eqb andb].
  - destruct (str_in "physical" opts), (str_in "loopback" opts); cbn [String.eqb Ascii.eqb Bool.eqb andb orb negb fst snd];
      destruct (existsb ext m), (existsb ext e); reflexivity.
  - destruct D as [D|D]; [discriminate D|]. rewrite D. reflexivity.
Qed.

(** ** Conditions *)

Lemma init_words l : (forall q, In q l -> In q (map fst proto_map)) -> NoDup l -> juniper_init (map PName l) = Ok (map (w1 true) l).
Proof.
  intros K N. unfold juniper_init. rewrite (proj2 (forallb_forall _ _)).
  - f_equal. rewrite map_map. apply (replace_map "hopopt" "hop-by-hop" (w0 true)); [exact N|]. intros q I. apply w_hop, K, I.
  - intros p I. apply in_map_iff in I. destruct I as (q & <- & I). apply K in I. assert (A : existsb (String.eqb q) (map fst proto_map) = true) by (apply existsb_exists; exists q; split; [exact I|apply String.eqb_refl]).
    revert q I A. apply (known_ind (fun q => existsb (String.eqb q) (map fst proto_map) = true -> match assoc q proto_map with Some _ => true | None => str_in q (map (fun kv => dec (snd kv)) proto_map) end = true)). repeat (apply Forall_cons; [reflexivity|]). apply Forall_nil.
Qed.
Lemma condition_words opts suffix main l all : evo_list_ok opts all -> (forall q, In q l -> In q all) ->
  (near_of opts = true -> existsb ext all = existsb ext l) ->
  condition opts suffix l (match map pval_text (map (w3 main (near_of opts)) l) with [] => [] | _ =>
    [Leaf (append (key_of (near_of opts) all) suffix :: gw (map pval_text (map (w3 main (near_of opts)) l)))] end).
Proof.
  intros O S A. destruct l as [|x l]; [reflexivity|]. cbn [condition map].
  exists (key_of (near_of opts) all). eexists. split; [reflexivity|].
  change (Forall2 (documented opts (key_of (near_of opts) all)) (x :: l) (values (gw (map pval_text (map (w3 main (near_of opts)) (x :: l)))))).
  set (m := x :: l) in *.
  assert (P : plain_words (map pval_text (map (w3 main (near_of opts)) m))).
  { intros s I. rewrite map_map in I. apply in_map_iff in I. destruct I as (q & <- & I). apply w_plain, (ev_known _ _ O), S, I. }
  rewrite gw_values by exact P. rewrite map_map.
  assert (G : forall q, In q m -> documented opts (key_of (near_of opts) all) q (pval_text (w3 main (near_of opts) q))).
  { intros q I. pose proof (ev_known _ _ O q (S q I)) as Kq.
    assert (Nr : q <> "ipv6-route") by (intros ->; apply (ev_routing _ _ O), S, I).
    pose proof (ext_spec q Nr) as X. pose proof (near_spec opts) as W. unfold documented, key_of. destruct (ext q) eqn:E.
    - assert (Ea : existsb ext all = true) by (apply existsb_exists; exists q; split; [apply S, I|exact E]). rewrite Ea.
      destruct (near_of opts) eqn:F.
      + left. split; [apply X; reflexivity|]. split; [apply W; reflexivity|]. split; [reflexivity|]. apply w_near, E.
      + right. left. split; [apply X; reflexivity|]. split; [rewrite <- W; discriminate|]. split; [reflexivity|]. apply w_far, E.
    - right. right. split; [rewrite <- X; discriminate|]. split; [|apply w_payload; assumption].
      destruct (near_of opts) eqn:F; [|reflexivity]. destruct (existsb ext all) eqn:Ea; [|reflexivity]. exfalso.
      destruct (ev_alike _ _ O (proj1 W eq_refl)) as [H|H].
      + apply X in H; [discriminate H|apply S, I].
      + apply existsb_exists in Ea. destruct Ea as (y & J & Y). apply (H y J). apply ext_spec; [|exact Y]. intros ->. apply (ev_routing _ _ O), J. }
  clearbody m. clear - G. induction m as [|y m IH]; [constructor|]. cbn [map]. constructor; [apply G; left; reflexivity|]. apply IH. intros q I. apply G. right. exact I.
Qed.

Theorem evo_spec opts ps es : In "ingress" opts \/ In "egress" opts -> evo_list_ok opts ps -> evo_list_ok opts es ->
  match evo_lines opts ps es with
  | Ok None => ps <> [] /\ of_ipv6 ps = []
  | Ok (Some lines) => (ps <> [] -> of_ipv6 ps <> []) /\
      exists a b, statements lines = Some (a ++ b) /\ condition opts "" (of_ipv6 ps) a /\ condition opts "-except" es b
  | Raise _ => False
  end.
Proof.
  intros D P E. unfold evo_lines. rewrite init_words by (apply P). cbn [bind].
  rewrite (replace_map "hopopt" "hop-by-hop" PName) by (try apply E; intros q _; cbn [pval_is]; apply String.eqb_eq).
  change (map (fun q => if pval_is "hopopt" (PName q) then PName "hop-by-hop" else PName q) es) with (map (w1 false) es).
  rewrite match_words by (try apply P; try apply E; exact D). cbn [bind fst snd].
  rewrite (remove_map "icmp") by (try apply P; intros q I; apply w_icmp, (ev_known _ _ P), I). fold (of_ipv6 ps).
  destruct (of_ipv6 ps) as [|x l] eqn:Q.
  - destruct ps as [|y ps]; [|cbn [map some negb andb]; split; [discriminate|reflexivity]].
    cbn [map some negb andb]. split; [congruence|]. cbn [replace_first map group_line some app].
    rewrite (replace_map "icmpv6" "icmp6") by (try apply E; intros q I; apply w_icmp6, (ev_known _ _ E), I).
    change (map (fun q => if pval_is "icmpv6" (w2 false (near_of opts) q) then PName "icmp6" else w2 false (near_of opts) q) es) with (map (w3 false (near_of opts)) es).
    assert (Pl : plain_words (map pval_text (map (w3 false (near_of opts)) es))).
    { intros s I. rewrite map_map in I. apply in_map_iff in I. destruct I as (q & <- & I). apply w_plain, (ev_known _ _ E), I. }
    exists []. eexists. split; [|split; [reflexivity|apply (condition_words opts "-except" false es es E); auto]].
    cbn [app]. apply renders_statements; apply (group_renders (append (key_of (near_of opts) es) "-except") _ (proj2 (key_plain _ _)) Pl).
  - assert (S : forall q, In q (of_ipv6 ps) -> In q ps) by (intros q I; apply filter_In in I; apply I).
    assert (Nx : negb (some (map (w2 true (near_of opts)) (x :: l))) && some (map (w2 true (near_of opts)) ps) = false) by reflexivity.
    rewrite Nx. clear Nx. split; [discriminate|]. rewrite <- Q.
    assert (Nq : NoDup (of_ipv6 ps)) by (apply NoDup_filter, P).
    rewrite (replace_map "icmpv6" "icmp6") by (try exact Nq; intros q I; apply w_icmp6, (ev_known _ _ P), S, I).
    rewrite (replace_map "icmpv6" "icmp6") by (try apply E; intros q I; apply w_icmp6, (ev_known _ _ E), I).
    change (map (fun q => if pval_is "icmpv6" (w2 false (near_of opts) q) then PName "icmp6" else w2 false (near_of opts) q) es) with (map (w3 false (near_of opts)) es).
    change (map (fun q => if pval_is "icmpv6" (w2 true (near_of opts) q) then PName "icmp6" else w2 true (near_of opts) q) (of_ipv6 ps)) with (map (w3 true (near_of opts)) (of_ipv6 ps)).
    assert (Pl : plain_words (map pval_text (map (w3 false (near_of opts)) es))).
    { intros s I. rewrite map_map in I. apply in_map_iff in I. destruct I as (q & <- & I). apply w_plain, (ev_known _ _ E), I. }
    assert (Pp : plain_words (map pval_text (map (w3 true (near_of opts)) (of_ipv6 ps)))).
    { intros s I. rewrite map_map in I. apply in_map_iff in I. destruct I as (q & <- & I). apply w_plain, (ev_known _ _ P), S, I. }
    assert (Ee : existsb ext ps = existsb ext (of_ipv6 ps)).
    { clear. unfold of_ipv6. induction ps as [|y ps IH]; [reflexivity|]. cbn [existsb filter]. destruct (String.eqb y "icmp") eqn:F; cbn [negb existsb].
      - apply String.eqb_eq in F. subst y. exact IH.
      - rewrite IH. reflexivity. }
    eexists. eexists. split; [|split; [apply (condition_words opts "" true (of_ipv6 ps) ps P S); auto|apply (condition_words opts "-except" false es es E); auto]].
    rewrite str_app_nil.
    destruct (group_renders (key_of (near_of opts) ps) _ (proj1 (key_plain _ _)) Pp) as (R1 & O1).
    destruct (group_renders (append (key_of (near_of opts) es) "-except") _ (proj2 (key_plain _ _)) Pl) as (R2 & O2).
    apply renders_statements; [apply renders_app; assumption|]. rewrite forallb_app, O1, O2. reflexivity.
Qed.

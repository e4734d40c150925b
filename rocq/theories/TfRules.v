(** Proofs about the Terraform generator: its rules against those of gce.py. *)
From Coq Require Import Lia ZifyBool ZifyNat Permutation.
From Verif Require Import SpecTf BaseFacts PyStrFacts IPFacts CollapseProofs ExcludeProofs PolicyProofs GenProofs GenProofs2 TextProofs CiscoProofs GceProofs GceRules GcePolicy GceDecide GceNames.
Local Open Scope string_scope.
Local Open Scope list_scope.
Local Open Scope Z_scope.

(** ** A rule and the rule of gce.py that says the same *)
Definition entry_like (e e' : json) : Prop :=
  exists x l, e = JDict (("protocol", x) :: l) /\ e' = JDict (("IPProtocol", x) :: l) /\ (l = [] \/ exists y, l = [("ports", y)]).
Definition entries_like (o o' : option json) : Prop :=
  (o = None /\ o' = None) \/ exists l l', o = Some (JList l) /\ o' = Some (JList l') /\ Forall2 entry_like l l'.
Record like (r q : rule_dict) : Prop := {
  lk_name : assoc "name" r = assoc "name" q;
  lk_direction : assoc "direction" r = assoc "direction" q;
  lk_network : assoc "network" r = assoc "network" q;
  lk_from : assoc "source_ranges" r = assoc "sourceRanges" q;
  lk_to : assoc "destination_ranges" r = assoc "destinationRanges" q;
  lk_source : assoc "source_tags" r = assoc "sourceTags" q;
  lk_target : assoc "target_tags" r = assoc "targetTags" q;
  lk_allow : entries_like (assoc "allow" r) (assoc "allowed" q);
  lk_deny : entries_like (assoc "deny" r) (assoc "denied" q) }.
Lemma entry_like_says e e' p : entry_like e e' -> tf_entry_says e p <-> entry_says e' p.
Proof.
  intros (x & l & -> & -> & L). unfold tf_entry_says, entry_says.
  assert (A : forall k y, k <> "ports" -> assoc "ports" ((k, y) :: l) = assoc "ports" l).
  { intros k y N. cbn [assoc]. apply not_eq_sym, String.eqb_neq in N. rewrite N. reflexivity. }
  split; intros (d & y & E & P & Q & S); injection E as <-; cbn [assoc String.eqb Ascii.eqb Bool.eqb] in P; injection P as <-;
    eexists; exists x; (split; [reflexivity|]); (split; [reflexivity|]); (split; [exact Q|]);
    unfold silent, lists in *; rewrite A in * by discriminate; exact S.
Qed.
Lemma entries_like_says o o' p : entries_like o o' ->
  (exists l e, o = Some (JList l) /\ In e l /\ tf_entry_says e p) <-> (exists l e, o' = Some (JList l) /\ In e l /\ entry_says e p).
Proof.
  intros [[-> ->]|(l & l' & -> & -> & F)].
  - split; intros (l & e & X & _); discriminate X.
  - assert (G : (exists e, In e l /\ tf_entry_says e p) <-> (exists e, In e l' /\ entry_says e p)).
    { induction F as [|e e' l l' L F IH]; [split; intros (e & [] & _)|]. pose proof (entry_like_says e e' p L) as S. split.
      - intros (x & [<-|I] & X); [exists e'; split; [left; reflexivity|apply S, X]|]. destruct (proj1 IH) as (y & Y & Z); [eauto|]. exists y. split; [right; exact Y|exact Z].
      - intros (x & [<-|I] & X); [exists e; split; [left; reflexivity|apply S, X]|]. destruct (proj2 IH) as (y & Y & Z); [eauto|]. exists y. split; [right; exact Y|exact Z]. }
    split; intros (k & e & X & I & S); injection X as <-; [destruct (proj1 G) as (y & Y & Z)|destruct (proj2 G) as (y & Y & Z)]; eauto.
Qed.
Lemma like_says dir r q p v : like r q -> tf_rule_says dir r p v <-> rule_says dir q p v.
Proof.
  intros [_ L1 _ L2 L3 L4 L5 L6 L7]. unfold tf_rule_says, rule_says, tf_from_ok, from_ok, tf_to_ok, to_ok, tf_target_ok, target_ok, silent, lists.
  rewrite L1, L2, L3, L4, L5.
  assert (E : (exists key l e, tf_verdict_key v = Some key /\ assoc key r = Some (JList l) /\ In e l /\ tf_entry_says e p) <->
              (exists key l e, verdict_key v = Some key /\ assoc key q = Some (JList l) /\ In e l /\ entry_says e p)).
  { unfold tf_verdict_key, verdict_key. pose proof (entries_like_says _ _ p L6) as A. pose proof (entries_like_says _ _ p L7) as D.
    destruct (String.eqb v "accept"); [|destruct (String.eqb v "deny")]; split; intros (key & l & e & K & X); try discriminate K; injection K as <-.
    - destruct (proj1 A) as (l' & e' & Y); eauto 10.
    - destruct (proj2 A) as (l' & e' & Y); eauto 10.
    - destruct (proj1 D) as (l' & e' & Y); eauto 10.
    - destruct (proj2 D) as (l' & e' & Y); eauto 10. }
  rewrite E. reflexivity.
Qed.
Lemma like_network n r q : like r q -> in_network n r <-> in_network n q.
Proof. intros L. unfold in_network. rewrite (lk_network _ _ L). reflexivity. Qed.

(** ** Term.__init__ *)
Lemma tf_init_gce dir t x : tf_init dir t = Ok x -> ~ In "" (t_destination_tag t) -> gce_init dir t = Ok x /\ (dir = "EGRESS" -> t_destination_tag t = []).
Proof.
  intros H N. unfold tf_init in H. unfold gce_init. destruct (term_protocols _ _); [|discriminate H]. cbn [bind] in *.
  assert (D : tf_direction dir t = Ok tt -> validate_direction dir t = Ok tt /\ (dir = "EGRESS" -> t_destination_tag t = [])).
  { unfold tf_direction, validate_direction. destruct (String.eqb dir "INGRESS") eqn:E1.
    - apply String.eqb_eq in E1. subst dir.
      repeat match goal with |- (if ?b then _ else _) = _ -> _ => destruct b; [intros X; discriminate X|] end.
      intros _. split; [reflexivity|intros X; discriminate X].
    - destruct (String.eqb dir "EGRESS") eqn:E2; [|intros _; split; [reflexivity|]; intros ->; discriminate E2].
      destruct (some (t_source_address t)); [intros X; discriminate X|]. destruct (some (t_destination_address t)); [|intros X; discriminate X].
      destruct (t_destination_tag t) as [|s l]; cbn [some negb]; [auto|intros X; discriminate X]. }
  destruct (tf_direction dir t) as [[]|]; [|discriminate H]. destruct (D eq_refl) as [-> D2]. cbn [bind] in *. split; [|exact D2]. clear D D2.
  repeat match type of H with (if ?b then _ else _) = _ => destruct b; [discriminate H|] end.
  match type of H with (if ?b then _ else _) = _ => destruct b; [|exact H] end.
  destruct (flatten_all t) as [u|]; [|discriminate H]. cbn [bind] in *.
  repeat match type of H with (if ?b then _ else _) = _ => destruct b; [discriminate H|] end. exact H.
Qed.

(** ** The shared part *)
Definition renamed : list (string * string) :=
  [("name", "name"); ("direction", "direction"); ("network", "network"); ("source_ranges", "sourceRanges"); ("destination_ranges", "destinationRanges");
   ("source_tags", "sourceTags"); ("target_tags", "targetTags"); ("allow", "allowed"); ("deny", "denied")].
Definition sim (d q : rule_dict) : Prop := forall k k', In (k, k') renamed -> assoc k d = assoc k' q.
Lemma renamed_eqb a a' b b' : In (a, a') renamed -> In (b, b') renamed -> String.eqb a b = String.eqb a' b'.
Proof.
  intros A B.
  assert (C : forallb (fun x => forallb (fun y => Bool.eqb (String.eqb (fst x) (fst y)) (String.eqb (snd x) (snd y))) renamed) renamed = true) by (vm_compute; reflexivity).
  rewrite forallb_forall in C. specialize (C _ A). rewrite forallb_forall in C. specialize (C _ B). apply Bool.eqb_prop in C. exact C.
Qed.
Lemma sim_set k k' v d q : In (k, k') renamed -> sim d q -> sim (jset k v d) (jset k' v q).
Proof. intros K S a a' A. rewrite !assoc_jset, (renamed_eqb _ _ _ _ A K). destruct (String.eqb a' k'); [reflexivity|exact (S _ _ A)]. Qed.
Lemma sim_left k v d q : str_in k (map fst renamed) = false -> sim d q -> sim (jset k v d) q.
Proof.
  intros K S a a' A. rewrite assoc_jset. destruct (String.eqb a k) eqn:E; [|exact (S _ _ A)]. apply String.eqb_eq in E. subst a.
  apply (in_map fst) in A. apply str_in_spec in A. cbn [fst] in A. congruence.
Qed.
Lemma sim_right k v d q : str_in k (map snd renamed) = false -> sim d q -> sim d (jset k v q).
Proof.
  intros K S a a' A. rewrite assoc_jset. destruct (String.eqb a' k) eqn:E; [|exact (S _ _ A)]. apply String.eqb_eq in E. subst a'.
  apply (in_map snd) in A. apply str_in_spec in A. cbn [snd] in A. congruence.
Qed.
Lemma sim_if (b : bool) d q d' q' : sim d q -> sim d' q' -> sim (if b then d else d') (if b then q else q').
Proof. destruct b; auto. Qed.
Ltac listed := unfold renamed; repeat first [left; reflexivity|right].
Definition open_dict (q : rule_dict) : Prop := forall k, In k ["allowed"; "denied"; "sourceRanges"; "destinationRanges"] -> assoc k q = None.
Lemma open_set k v q : str_in k ["allowed"; "denied"; "sourceRanges"; "destinationRanges"] = false -> open_dict q -> open_dict (jset k v q).
Proof.
  intros K O a A. rewrite assoc_jset. destruct (String.eqb a k) eqn:E; [|exact (O _ A)]. apply String.eqb_eq in E. subst a. apply str_in_spec in A. congruence.
Qed.
Lemma open_if (b : bool) x y : open_dict x -> open_dict y -> open_dict (if b then x else y).
Proof. destruct b; auto. Qed.
Definition without_priority (g : gce_term) : gce_term := mkGceTerm (g_term g) None (g_source_accounts g) (g_target_accounts g).
Lemma tf_dict_sim dir network m6 comment index g t d : tf_dict dir network m6 comment index g t = Ok d ->
  g_source_accounts g = [] -> g_target_accounts g = [] -> ~ In "" (t_source_tag t ++ t_destination_tag t) ->
  exists q, term_dict dir network m6 comment (without_priority g) t = Ok q /\ sim d q /\ open_dict q /\
    assoc "priority" d = Some (match g_priority g with Some x => x | None => JNum index end).
Proof.
  intros H A1 A2 N. unfold tf_dict in H. unfold term_dict, without_priority. cbn [g_source_accounts g_target_accounts g_priority]. rewrite A1, A2 in *.
  set (d0 := [("description", JStr (join " " comment)); ("name", JStr (t_name t)); ("direction", JStr dir); ("priority", JNum index)]) in H.
  set (d1 := if is_empty network then d0 else jset "name" (JStr (append (last_part network) (append "-" (t_name t)))) (jset "network" (JStr network) d0)) in H.
  set (d2 := if m6 then jset "name" (JStr (append (rule_name d1) "-v6")) d1 else d1) in H.
  set (q0 := [("description", JStr (slice_to (join " " comment) 2047)); ("name", JStr (t_name t)); ("direction", JStr dir)]).
  set (q1 := if is_empty network then q0 else jset "name" (JStr (append (last_part network) (append "-" (t_name t)))) (jset "network" (JStr network) q0)).
  set (q2 := if m6 then jset "name" (JStr (append (rule_name q1) "-v6")) q1 else q1).
  assert (S0 : sim d0 q0) by (intros k k' I; destruct I as [I|I]; [|repeat (destruct I as [I|I]; [|])]; try contradiction I; injection I as <- <-; reflexivity).
  assert (S1 : sim d1 q1) by (apply sim_if; [exact S0|]; apply sim_set; [listed|]; apply sim_set; [listed|exact S0]).
  assert (S2 : sim d2 q2).
  { unfold d2, q2, rule_name. rewrite (S1 "name" "name") by listed. apply sim_if; [|exact S1]. apply sim_set; [listed|exact S1]. }
  assert (O2 : open_dict q2).
  { unfold q2. assert (O1 : open_dict q1).
    { unfold q1. assert (O0 : open_dict q0) by (intros k [<-|[<-|[<-|[<-|[]]]]]; reflexivity).
      apply open_if; [exact O0|]. apply open_set; [reflexivity|]. apply open_set; [reflexivity|exact O0]. }
    apply open_if; [apply open_set; [reflexivity|exact O1]|exact O1]. }
  assert (P2 : assoc "priority" d2 = Some (JNum index)).
  { unfold d2. assert (P1 : assoc "priority" d1 = Some (JNum index)) by (unfold d1; destruct (is_empty network); [reflexivity|fields; reflexivity]).
    destruct m6; [fields|]; exact P1. }
  clearbody d2 q2. clear d1 d0 q1 q0 S0 S1.
  rewrite !no_empty_filter by (intros I; apply N, in_or_app; auto).
  destruct (30 <? _)%nat; [discriminate H|]. destruct (70 <? _)%nat; [discriminate H|]. cbn [List.length Nat.ltb Nat.leb orb some] in *.
  cbv zeta in *. cbn [andb] in *. apply ok_inj in H. eexists. split; [reflexivity|].
  match type of H with match g_priority g with Some _ => _ | None => ?b end = _ => set (d3 := b) in H end.
  match goal with |- sim _ ?b /\ _ => set (q3 := b) end.
  assert (S3 : sim d3 q3).
  { unfold d3, q3. repeat first [apply sim_if | apply sim_set; [listed|] | exact S2]. }
  assert (O3 : open_dict q3) by (unfold q3; repeat first [apply open_if | apply open_set; [reflexivity|] | exact O2]).
  assert (P3 : assoc "priority" d3 = Some (JNum index)).
  { unfold d3. repeat match goal with |- assoc _ (if ?b then _ else _) = _ => destruct b | |- assoc _ (jset _ _ (if ?b then _ else _)) = _ => destruct b end; fields; exact P2. }
  subst d. split; [|split; [exact O3|]].
  - destruct (g_priority g); [apply sim_left; [reflexivity|]|]; exact S3.
  - destruct (g_priority g); [rewrite assoc_jset; reflexivity|exact P3].
Qed.

(** ** The rules of a term for one family *)
Lemma like_set k k' v d q : In (k, k') [("name", "name"); ("source_ranges", "sourceRanges"); ("destination_ranges", "destinationRanges")] ->
  like d q -> like (jset k v d) (jset k' v q).
Proof.
  intros K [L1 L2 L3 L4 L5 L6 L7 L8 L9]. destruct K as [K|[K|[K|[]]]]; injection K as <- <-;
    constructor; rewrite !assoc_jset; cbn [String.eqb Ascii.eqb Bool.eqb]; first [reflexivity|assumption].
Qed.
Lemma like_priority v d q : like d q -> like (jset "priority" v d) q.
Proof. intros [L1 L2 L3 L4 L5 L6 L7 L8 L9]. constructor; rewrite assoc_jset; cbn [String.eqb Ascii.eqb Bool.eqb]; assumption. Qed.
Lemma tf_entry_like t p : entry_like (tf_entry t p) (gce_entry t p).
Proof. eexists. eexists. split; [reflexivity|]. split; [reflexivity|]. destruct (some _); eauto. Qed.
Lemma sim_like d q key key' t ps : sim d q -> open_dict q -> In (key, key') [("allow", "allowed"); ("deny", "denied")] ->
  like (jset key (JList (map (tf_entry t) ps)) d) (jset key' (JList (map (gce_entry t) ps)) q).
Proof.
  intros S O K.
  assert (E : entries_like (Some (JList (map (tf_entry t) ps))) (Some (JList (map (gce_entry t) ps)))).
  { right. eexists. eexists. split; [reflexivity|]. split; [reflexivity|]. induction ps; constructor; [apply tf_entry_like|assumption]. }
  assert (N : forall k k', In (k, k') [("allow", "allowed"); ("deny", "denied")] -> entries_like (assoc k d) (assoc k' q)).
  { intros k k' I. left. rewrite (S k k') by (destruct I as [I|[I|[]]]; injection I as <- <-; listed).
    assert (X : assoc k' q = None) by (apply O; destruct I as [I|[I|[]]]; injection I as _ <-; [left|right; left]; reflexivity). auto. }
  destruct K as [K|[K|[]]]; injection K as <- <-;
    constructor; rewrite !assoc_jset; cbn [String.eqb Ascii.eqb Bool.eqb]; first [exact E|apply S; listed|apply N; cbn [In]; auto].
Qed.
Fixpoint counted (n : Z) (rs : list rule_dict) : Prop := match rs with [] => True | r :: l => rule_priority r = Some n /\ counted (n + 1) l end.
Lemma chunks_like key key' several d q : In (key, key') [("source_ranges", "sourceRanges"); ("destination_ranges", "destinationRanges")] -> like d q ->
  forall cs i index, Forall2 like (tf_chunks key several i index d cs) (chunk_rules key' several i q cs) /\ counted index (tf_chunks key several i index d cs).
Proof.
  intros K L. induction cs as [|c cs IH]; intros i index; cbn [tf_chunks chunk_rules]; [split; [constructor|exact Logic.I]|].
  destruct (IH (i + 1) (index + 1)) as [A B]. split.
  - constructor; [|exact A]. apply like_priority. apply like_set; [right; exact K|]. destruct several; [|exact L].
    rewrite <- (lk_name _ _ L). destruct (assoc "name" d) as [[| | | |]|]; try exact L. apply like_set; [left; reflexivity|exact L].
  - cbn [counted]. split; [|exact B]. unfold rule_priority. rewrite assoc_jset. reflexivity.
Qed.
Lemma like_name r q : like r q -> rule_name r = rule_name q.
Proof. intros L. unfold rule_name. rewrite (lk_name _ _ L). reflexivity. Qed.
Lemma like_long rs qs : Forall2 like rs qs -> existsb (fun r => 63 <? slen (rule_name r)) rs = existsb (fun r => 63 <? slen (rule_name r)) qs.
Proof. induction 1 as [|r q rs qs L F IH]; [reflexivity|]. cbn [existsb]. rewrite IH, (like_name _ _ L). reflexivity. Qed.
Lemma rules_like dir network v m6 comment index g t ps o : tf_rules dir network v m6 comment index g t ps = Ok o ->
  g_source_accounts g = [] -> g_target_accounts g = [] -> ~ In "" (t_source_tag t ++ t_destination_tag t) ->
  (g_priority g = None \/ t_source_address t <> [] \/ t_destination_address t <> []) ->
  exists qs, convert_to_dict dir network v m6 comment (without_priority g) t ps = Ok qs /\
    match o with None => qs = [] | Some rules => Forall2 like rules qs /\ counted index rules end.
Proof.
  intros H A1 A2 N Pr. unfold tf_rules in H. destruct (tf_dict _ _ _ _ _ _ _) as [d|] eqn:D; [|discriminate H]. cbn [bind] in H.
  destruct (tf_dict_sim _ _ _ _ _ _ _ _ D A1 A2 N) as (q & Q & S & O & P). clear D.
  unfold convert_to_dict. rewrite Q. cbn [bind].
  assert (J : jhas "target_tags" d || jhas "source_tags" d = jhas "targetTags" q || jhas "sourceTags" q).
  { unfold jhas. rewrite (S "target_tags" "targetTags"), (S "source_tags" "sourceTags") by listed. reflexivity. }
  rewrite J in H. clear J.
  assert (None' : @Ok (option (list rule_dict)) None = Ok o -> exists qs : list rule_dict, Ok (@nil rule_dict) = Ok qs /\
    match o with None => qs = [] | Some rules => Forall2 like rules qs /\ counted index rules end).
  { intros X. apply ok_inj in X. subst o. exists []. split; reflexivity. }
  match type of H with (if ?b then _ else _) = _ => destruct b; [exact (None' H)|] end.
  cbv zeta in *.
  destruct (some (t_source_address t) && negb (some (gce_addresses v (t_source_address t)))) eqn:B1; [exact (None' H)|].
  destruct (some (t_destination_address t) && negb (some (gce_addresses v (t_destination_address t)))) eqn:B2; [exact (None' H)|].
  match type of H with (if ?b then _ else _) = _ => destruct b; [exact (None' H)|] end. clear None'.
  match type of H with (if ?b then _ else _) = _ => destruct b; [discriminate H|] end.
  destruct (t_action t) as [|a l]; [discriminate H|].
  assert (Ka : forall key, assoc a tf_actions = Some key -> exists key', assoc a gce_actions = Some key' /\ In (key, key') [("allow", "allowed"); ("deny", "denied")]).
  { intros key E. unfold tf_actions in E. unfold gce_actions. cbn [assoc] in *. destruct (String.eqb a "accept"); [injection E as <-; exists "allowed"; cbn; auto|].
    destruct (String.eqb a "deny"); [injection E as <-; exists "denied"; cbn; auto|discriminate E]. }
  destruct (assoc a tf_actions) as [key|]; [|discriminate H]. destruct (Ka key eq_refl) as (key' & -> & K). clear Ka.
  set (d1 := if some (t_logging t) then jset "log_config" (JDict [("metadata", JStr "INCLUDE_ALL_METADATA")]) d else d) in *.
  set (q1 := if some (t_logging t) then jset "logConfig" (JDict [("enable", JBool true)]) q else q) in *.
  assert (S1 : sim d1 q1) by (unfold d1, q1; destruct (some (t_logging t)); [apply sim_left; [reflexivity|]; apply sim_right; [reflexivity|]|]; exact S).
  assert (O1 : open_dict q1) by (unfold q1; destruct (some (t_logging t)); [apply open_set; [reflexivity|]|]; exact O).
  assert (P1 : assoc "priority" d1 = assoc "priority" d) by (unfold d1; destruct (some (t_logging t)); [fields|]; reflexivity).
  clearbody d1 q1.
  match type of H with (if existsb _ ?x then _ else _) = _ => set (rs := x) in * end.
  match goal with |- exists _, (if existsb _ ?x then _ else _) = _ /\ _ => set (qs := x) in * end.
  assert (F : Forall2 like rs qs /\ counted index rs).
  { pose proof (sim_like _ _ _ _ t (if some ps then filter (fun p => negb (proto_left_out v p)) ps else [PName "all"]) S1 O1 K) as L.
    unfold rs, qs. destruct (some (gce_addresses v (t_source_address t))) eqn:X1.
    { apply chunks_like; [left; reflexivity|exact L]. }
    destruct (some (gce_addresses v (t_destination_address t))) eqn:X2.
    { apply chunks_like; [right; left; reflexivity|exact L]. }
    split; [constructor; [exact L|constructor]|]. split; [|exact Logic.I].
    assert (G : g_priority g = None).
    { cbn [negb] in B1, B2. rewrite andb_true_r in B1, B2. apply some_false in B1, B2. destruct Pr as [Pr|[Pr|Pr]]; [exact Pr|contradiction|contradiction]. }
    rewrite G in P. unfold rule_priority. rewrite assoc_jset.
    replace (String.eqb "priority" key) with false by (destruct K as [K|[K|[]]]; injection K as <- _; reflexivity).
    rewrite P1, P. reflexivity. }
  clearbody rs qs. rewrite (like_long _ _ (proj1 F)) in H. destruct (existsb _ qs); [discriminate H|]. apply ok_inj in H. subst o.
  exists qs. split; [reflexivity|exact F].
Qed.

(** ** The dictionaries of rules *)
Definition dict_of (b : list rule_dict) : rule_dict := map (fun r => (rule_name r, JDict r)) b.
Lemma jset_new k v d : ~ In k (map fst d) -> jset k v d = d ++ [(k, v)].
Proof.
  induction d as [|[a x] d IH]; intros N; [reflexivity|]. cbn [jset app]. cbn [map fst] in N.
  destruct (String.eqb k a) eqn:E; [apply String.eqb_eq in E; subst a; exfalso; apply N; left; reflexivity|].
  rewrite IH; [reflexivity|]. intros X. apply N. right. exact X.
Qed.
Lemma by_name_map rules : NoDup (map rule_name rules) -> by_name rules = dict_of rules.
Proof.
  intros N. unfold by_name. enough (K : forall d, NoDup (map fst d ++ map rule_name rules) ->
    fold_left (fun d r => jset (rule_name r) (JDict r) d) rules d = d ++ dict_of rules) by (apply (K []); exact N).
  clear N. induction rules as [|r rules IH]; intros d N; cbn [fold_left]; [unfold dict_of; cbn [map]; rewrite app_nil_r; reflexivity|].
  cbn [map] in N. rewrite jset_new.
  - rewrite IH; [unfold dict_of; cbn [map]; rewrite <- app_assoc; reflexivity|]. rewrite map_app. cbn [map fst]. rewrite <- app_assoc. exact N.
  - intros X. apply NoDup_remove_2 in N. apply N, in_or_app. left. exact X.
Qed.
Lemma dict_of_assoc b name r : NoDup (map rule_name b) -> assoc name (dict_of b) = Some (JDict r) <-> In r b /\ rule_name r = name.
Proof.
  intros N. induction b as [|x b IH]; [split; [discriminate|intros [[] _]]|]. cbn [map] in N. inversion N as [|y l N1 N2]; subst.
  cbn [dict_of map assoc]. destruct (String.eqb name (rule_name x)) eqn:E.
  - apply String.eqb_eq in E. subst name. split.
    + intros X. injection X as <-. split; [left|]; reflexivity.
    + intros [[<-|I] Y]; [reflexivity|]. exfalso. apply N1. rewrite <- Y. apply in_map, I.
  - apply String.eqb_neq in E. fold (dict_of b). rewrite (IH N2). split; [intros [A B]; split; [right|]; assumption|].
    intros [[<-|I] Y]; [congruence|auto].
Qed.
(** The dictionaries hold exactly these rules. *)
Definition holds (ds : list rule_dict) (rules : list rule_dict) : Prop :=
  exists bs, ds = map dict_of bs /\ concat bs = rules /\ forall b, In b bs -> NoDup (map rule_name b).
Lemma holds_app a b c d : holds a b -> holds c d -> holds (a ++ c) (b ++ d).
Proof.
  intros (x & -> & <- & A) (y & -> & <- & B). exists (x ++ y). rewrite map_app, concat_app. split; [reflexivity|]. split; [reflexivity|].
  intros z Z. apply in_app_or in Z. destruct Z; auto.
Qed.
Lemma holds_nil : holds [] [].
Proof. exists []. split; [reflexivity|]. split; [reflexivity|]. intros b []. Qed.
Lemma holds_in ds rules r : holds ds rules -> (exists d name, In d ds /\ assoc name d = Some (JDict r)) <-> In r rules.
Proof.
  intros (bs & -> & <- & N). rewrite in_concat. split.
  - intros (d & name & I & A). apply in_map_iff in I. destruct I as (b & <- & I). apply (dict_of_assoc b name r (N b I)) in A. exists b. tauto.
  - intros (b & I & R). exists (dict_of b), (rule_name r). split; [apply in_map, I|]. apply dict_of_assoc; auto.
Qed.
Lemma counted_app n a b : counted n (a ++ b) <-> counted n a /\ counted (n + Zlen a) b.
Proof.
  revert n. induction a as [|r a IH]; intros n; cbn [app counted]; [unfold Zlen; cbn [List.length Z.of_nat]; rewrite Z.add_0_r; tauto|].
  rewrite IH. replace (n + Zlen (r :: a)) with (n + 1 + Zlen a) by (unfold Zlen; cbn [List.length]; lia). tauto.
Qed.
Lemma counted_in n l r : counted n l -> In r l -> exists k, rule_priority r = Some k /\ n <= k < n + Zlen l.
Proof.
  revert n. induction l as [|x l IH]; intros n C I; [destruct I|]. destruct C as [C1 C2]. destruct I as [<-|I].
  - exists n. split; [exact C1|]. unfold Zlen. cbn [List.length]. lia.
  - destruct (IH _ C2 I) as (k & K & B). exists k. split; [exact K|]. unfold Zlen in *. cbn [List.length]. lia.
Qed.

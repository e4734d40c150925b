(** Proofs about whole Google Compute Engine policies: total size, names, descriptions and
    expired terms. *)
From Coq Require Import Lia ZifyBool ZifyNat Permutation.
From Verif Require Import SpecGce BaseFacts PyStrFacts TextProofs GenProofs GenProofs2 CiscoProofs CiscoGroupAcl IptPolicy PolicyProofs GceProofs GceDecide GceLimits.
Local Open Scope string_scope.
Local Open Scope list_scope.
Local Open Scope Z_scope.

(** ** What the start of a term leaves alone *)
Definition same_texts (t u : term) : Prop := t_name u = t_name t /\ t_owner u = t_owner t /\ t_comment u = t_comment t.
Lemma texts_refl t : same_texts t t. Proof. repeat split. Qed.
Lemma texts_trans a b c : same_texts a b -> same_texts b c -> same_texts a c.
Proof. intros (? & ? & ?) (? & ? & ?). repeat split; congruence. Qed.
Lemma texts_flag t : same_texts t (set_flattened true t). Proof. destruct t. repeat split. Qed.
Lemma texts_all a b c t : same_texts t (set_flattened_saddr a (set_flattened_daddr b (set_flattened_addr c t))). Proof. destruct t. repeat split. Qed.
Lemma texts_s l t : same_texts t (set_source_address l (set_flattened_saddr l t)). Proof. destruct t. repeat split. Qed.
Lemma texts_d l t : same_texts t (set_destination_address l (set_flattened_daddr l t)). Proof. destruct t. repeat split. Qed.
Lemma texts_a l t : same_texts t (set_address l (set_flattened_addr l t)). Proof. destruct t. repeat split. Qed.
Lemma flatten_texts t u : flatten_all t = Ok u -> same_texts t u.
Proof.
  intros H. unfold flatten_all in H. generalize (texts_flag t). revert H. generalize (set_flattened true t). intros t0 H R. cbv zeta in H.
  match type of H with (if ?b then _ else _) = _ => destruct b end.
  { apply ok_inj in H. subst u. exact (texts_trans _ _ _ R (texts_all _ _ _ _)). }
  match type of H with bind ?m _ = _ => destruct m as [t1|] eqn:E1; [|discriminate H] end. cbn [bind] in H.
  assert (R1 : same_texts t t1).
  { match type of E1 with (if ?b then _ else _) = _ => destruct b end; [|apply ok_inj in E1; subst; exact R]. match type of E1 with bind ?m _ = _ => destruct m as [l|]; [|discriminate E1] end. cbn [bind] in E1.
    apply ok_inj in E1. subst t1. exact (texts_trans _ _ _ R (texts_s _ _)). }
  match type of H with bind ?m _ = _ => destruct m as [t2|] eqn:E2; [|discriminate H] end. cbn [bind] in H.
  assert (R2 : same_texts t t2).
  { match type of E2 with (if ?b then _ else _) = _ => destruct b end; [|apply ok_inj in E2; subst; exact R1]. match type of E2 with bind ?m _ = _ => destruct m as [l|]; [|discriminate E2] end. cbn [bind] in E2.
    apply ok_inj in E2. subst t2. exact (texts_trans _ _ _ R1 (texts_d _ _)). }
  clear E1 E2. match type of H with (if ?b then _ else _) = _ => destruct b end; [|apply ok_inj in H; subst; exact R2].
  match type of H with bind ?m _ = _ => destruct m as [l|]; [|discriminate H] end. cbn [bind] in H.
  apply ok_inj in H. subst u. exact (texts_trans _ _ _ R2 (texts_a _ _)).
Qed.
Lemma init_texts dir t tp : gce_init dir t = Ok tp -> same_texts t (fst tp).
Proof.
  intros H. unfold gce_init in H. destruct (term_protocols _ _) as [q|]; [|discriminate H]. cbn [bind] in H.
  destruct (validate_direction dir t) as [[]|] eqn:V; [|discriminate H]. cbn [bind] in H.
  do 3 (match type of H with (if ?b then _ else _) = _ => destruct b; [discriminate H|] end).
  match type of H with (if ?b then _ else _) = _ => destruct b end; [|apply ok_inj in H; subst tp; apply texts_refl].
  destruct (flatten_all t) as [u|] eqn:F; [|discriminate H]. cbn [bind] in H. apply flatten_texts in F.
  do 2 (match type of H with (if ?b then _ else _) = _ => destruct b; [discriminate H|] end).
  apply ok_inj in H. subst tp. exact F.
Qed.

(** ** Sizes *)
Lemma proto_ports_size k d : proto_ports k d = entries_size d k.
Proof.
  unfold proto_ports, entries_size. destruct (assoc k d) as [j|]; [|reflexivity]. destruct j as [| | |l|]; try reflexivity.
  assert (X : forall n, fold_left (fun n e => match e with JDict x => n + (list_length "ports" x + 1) | _ => n end) l n = n + fold_right (fun e n => entry_size e + n) 0 l).
  { induction l as [|e l IH]; intros n; cbn [fold_left fold_right]; [lia|]. rewrite IH. unfold entry_size at 2. destruct e as [| | | |l0]; try lia.
    change (items l0 "ports") with (list_length "ports" l0). lia. }
  rewrite X. reflexivity.
Qed.
Lemma count_size r : within_limits r -> attribute_count r = rule_size r.
Proof.
  intros W. unfold attribute_count, rule_size. rewrite !proto_ports_size. change list_length with (fun k d => items d k). cbv beta.
  destruct (wl_ranges r W) as (_ & _ & S).
  assert (X : (if items r "destinationRanges" =? 0 then items r "sourceRanges" else items r "destinationRanges") = items r "sourceRanges" + items r "destinationRanges").
  { destruct (items r "destinationRanges" =? 0) eqn:E; [lia|]. destruct S as [S|S]; unfold items, silent in *; rewrite S in *; [lia|]. cbn in E. lia. }
  rewrite X. lia.
Qed.
Lemma total_app a b : total_size (a ++ b) = total_size a + total_size b.
Proof. unfold total_size. induction a as [|r a IH]; [reflexivity|]. cbn [app fold_right]. rewrite IH. lia. Qed.
Lemma fold_size rules : (forall r, In r rules -> within_limits r) -> forall n, fold_left (fun n r => n + attribute_count r) rules n = n + total_size rules.
Proof.
  induction rules as [|r rules IH]; intros W n; cbn [fold_left]; [cbn; lia|]. rewrite IH by (intros; apply W; right; assumption).
  cbn [total_size fold_right]. rewrite count_size by (apply W; left; reflexivity). fold (total_size rules). lia.
Qed.

(** ** Names *)
Definition tailed (base s : string) : Prop := s = base \/ extends s base.
Lemma numbered_in base n s : In s (numbered base n) -> exists k, s = append base (append "-" (dec (Z.of_nat k))).
Proof. intros I. apply in_map_iff in I. destruct I as (k & <- & _). eauto. Qed.
Lemma numbered_nodup base n : NoDup (numbered base n).
Proof.
  unfold numbered. apply FinFun.Injective_map_NoDup; [|apply seq_NoDup]. intros a b H. apply append_inj_l in H. apply append_inj_l in H. apply dec_inj in H; lia.
Qed.
Definition one_pass (base : string) (l : list string) : Prop := l = [] \/ l = [base] \/ exists n, l = numbered base n.
Lemma one_pass_nodup base l : one_pass base l -> NoDup l.
Proof. intros [->|[->|(n & ->)]]; [constructor|constructor; [intros []|constructor]|apply numbered_nodup]. Qed.
Lemma one_pass_in base l s : one_pass base l -> In s l -> s = base \/ exists k, s = append base (append "-" (dec (Z.of_nat k))).
Proof. intros [->|[->|(n & ->)]] I; [destruct I|destruct I as [<-|[]]; left; reflexivity|right; exact (numbered_in _ _ _ I)]. Qed.
Lemma dec_first k x : 0 <= k -> dec k = String "v" x -> False.
Proof. intros K E. pose proof (dec_digits k K) as D. rewrite E in D. discriminate D. Qed.
Lemma two_passes base a b : one_pass base a -> one_pass (append base "-v6") b -> NoDup (a ++ b).
Proof.
  intros A B. assert (X : forall s, In s a -> In s b -> False).
  { intros s Ia Ib. apply (one_pass_in _ _ _ A) in Ia. apply (one_pass_in _ _ _ B) in Ib.
    assert (Y : exists z, s = append base (String "-" (String "v" z))).
    { destruct Ib as [->|(k & ->)]; [exists "6"; reflexivity|]. rewrite str_app_assoc. eexists. reflexivity. }
    destruct Y as (z & Y). destruct Ia as [->|(k & ->)].
    - rewrite <- (str_app_nil base) in Y at 1. apply append_inj_l in Y. discriminate Y.
    - apply append_inj_l in Y. change (append "-" (dec (Z.of_nat k))) with (String "-" (dec (Z.of_nat k))) in Y. injection Y as Y. exact (dec_first _ _ (Zle_0_nat k) Y). }
  apply one_pass_nodup in A, B. clear -A B X. induction A as [|s a N A IH]; [exact B|]. cbn [app]. constructor.
  - intros I. apply in_app_or in I. destruct I as [I|I]; [exact (N I)|exact (X s (or_introl eq_refl) I)].
  - apply IH. intros s' I. apply X. right. exact I.
Qed.
Lemma one_pass_tailed base l s : one_pass base l -> In s l -> tailed base s.
Proof. intros O I. apply (one_pass_in _ _ _ O) in I. destruct I as [->|(k & ->)]; [left; reflexivity|right; eexists; reflexivity]. Qed.
Lemma v6_tailed base s : tailed (append base "-v6") s -> tailed base s.
Proof. intros [->|(x & ->)]; right; [exists "v6"; reflexivity|]. rewrite str_app_assoc. eexists. reflexivity. Qed.
Lemma extends_base p a b : extends (append p a) (append p b) <-> extends a b.
Proof. split; intros (x & E); exists x; [rewrite str_app_assoc in E; apply append_inj_l in E; exact E|rewrite E, str_app_assoc; reflexivity]. Qed.
(** Two names with different bases, neither of which extends the other, differ. *)
Lemma prefix_split a b : forall x y, append a x = append b y -> (exists z, b = append a z) \/ (exists z, a = append b z).
Proof.
  revert b. induction a as [|c a IH]; intros b x y E; [left; exists b; reflexivity|]. destruct b as [|c' b]; [right; eexists; reflexivity|].
  cbn [append] in E. injection E as -> E. destruct (IH b x y E) as [(z & ->)|(z & ->)]; [left|right]; exists z; reflexivity.
Qed.
Lemma tailed_apart a b s : a <> b -> ~ extends a b -> ~ extends b a -> tailed a s -> tailed b s -> False.
Proof.
  assert (K : forall a b s, a <> b -> ~ extends b a -> (exists z, b = append a z) -> tailed a s -> tailed b s -> False).
  { intros a' b' s' N X (z & ->) A B. destruct z as [|c z]; [rewrite str_app_nil in N; contradiction|].
    assert (E : exists w, s' = append a' (String c w)) by (destruct B as [->|(y & ->)]; [eexists; reflexivity|]; rewrite str_app_assoc; eexists; reflexivity).
    destruct E as (w & E). destruct A as [->|(y & ->)].
    - rewrite <- (str_app_nil a') in E at 1. apply append_inj_l in E. discriminate E.
    - apply append_inj_l in E. change (append "-" y) with (String "-" y) in E. injection E as <- _. apply X. exists z. reflexivity. }
  intros N X Y A B. assert (P : exists x y, append a x = append b y).
  { destruct A as [A|(x & A)], B as [B|(y & B)]; subst s; [exists "", ""; rewrite !str_app_nil; exact B|exists "", (append "-" y); rewrite str_app_nil; exact B| |eauto].
    exists (append "-" x), "". rewrite str_app_nil. exact B. }
  destruct P as (x & y & P). destruct (prefix_split _ _ _ _ P) as [P'|P']; [exact (K a b s N Y P' A B)|exact (K b a s (not_eq_sym N) X P' B A)].
Qed.

(** ** One term *)
Definition prefixed (network name : string) : string := if is_empty network then name else append (last_part network) (append "-" name).
Lemma convert_names dir network v m6 comment g t ps rules : convert_to_dict dir network v m6 comment g t ps = Ok rules ->
  one_pass (append (prefixed network (t_name t)) (if m6 then "-v6" else "")) (map rule_name rules).
Proof. intros H. apply convert_limits in H. destruct H as [_ [->|[H|(n & H)]]]; [left; reflexivity|right; left; exact H|right; right; exists n; exact H]. Qed.
Record pass_facts (N mx : Z) (count : Z) (rules : list rule_dict) (n : Z) : Prop := {
  pf_limits : forall r, In r rules -> within_limits r;
  pf_count : n = count + total_size rules;
  pf_max : 0 < mx <= N -> count <= N -> n <= N }.
Lemma pass_sizes i mx N : forall vs g comment count rules c' n', gce_pass i mx g vs comment count = Ok (rules, c', n') -> pass_facts N mx count rules n'.
Proof.
  induction vs as [|v vs IH]; intros g comment count rules c' n' H; cbn [gce_pass] in H.
  - apply ok_inj in H. apply pair_equal_spec in H. destruct H as [H <-]. apply pair_equal_spec in H. destruct H as [<- _].
    constructor; [intros r []|cbn; lia|intros; lia].
  - destruct (gce_init _ _) as [tp|]; [|discriminate H]. cbn [bind] in H.
    match type of H with bind ?m _ = _ => destruct m as [rs|] eqn:C; [|discriminate H] end. cbn [bind] in H. apply convert_limits in C. destruct C as [C _].
    assert (W : forall r, In r rs -> within_limits r) by (intros r I; apply C, I).
    rewrite (fold_size rs W) in H.
    match type of H with (if ?b then _ else _) = _ => destruct b eqn:B; [discriminate H|] end.
    match type of H with bind ?m _ = _ => destruct m as [[[more c2] n2]|] eqn:M; [|discriminate H] end. cbn [bind fst snd] in H.
    apply ok_inj in H. apply pair_equal_spec in H. destruct H as [H <-]. apply pair_equal_spec in H. destruct H as [<- _].
    apply IH in M. destruct M as [M1 M2 M3]. constructor.
    + intros r I. apply in_app_or in I. destruct I as [I|I]; [exact (W r I)|exact (M1 r I)].
    + rewrite total_app. lia.
    + intros X Y. apply M3; [exact X|]. destruct rs as [|r rs]; [cbn; lia|]. cbn [some] in B. lia.
Qed.
Lemma pass_names i mx g comment count rules c' n' : gce_pass i mx g (gce_families (gi_af i)) comment count = Ok (rules, c', n') ->
  NoDup (map rule_name rules) /\ forall r, In r rules -> tailed (prefixed (gi_network i) (t_name (g_term g))) (rule_name r).
Proof.
  intros H. set (B := prefixed (gi_network i) (t_name (g_term g))).
  assert (P : exists a b, map rule_name rules = a ++ b /\ one_pass B a /\ one_pass (append B "-v6") b).
  { unfold gce_families in H.
    destruct (String.eqb (gi_af i) "mixed") eqn:Af; [|assert (X : exists v, gce_pass i mx g [v] comment count = Ok (rules, c', n')) by (destruct (String.eqb (gi_af i) "inet6"); eauto);
      clear H; destruct X as (v & H)]; cbn [gce_pass] in H.
    - destruct (gce_init _ _) as [tp|] eqn:T1; [|discriminate H]. cbn [bind] in H. apply init_texts in T1.
      match type of H with bind ?m _ = _ => destruct m as [rs|] eqn:C; [|discriminate H] end. cbn [bind] in H.
      match type of H with (if ?b then _ else _) = _ => destruct b; [discriminate H|] end. cbn [bind g_term] in H.
      destruct (gce_init _ (fst tp)) as [tp2|] eqn:T2; [|discriminate H]. cbn [bind] in H. apply init_texts in T2.
      match type of H with bind (bind ?m _) _ = _ => destruct m as [rs2|] eqn:C2; [|discriminate H] end. cbn [bind] in H.
      match type of H with bind (if ?b then _ else _) _ = _ => destruct b; [discriminate H|] end. cbn [bind fst snd] in H.
      apply ok_inj in H. apply pair_equal_spec in H. destruct H as [H _]. apply pair_equal_spec in H. destruct H as [<- _].
      rewrite Af in C, C2. cbn [andb] in C, C2. apply convert_names in C, C2. rewrite (proj1 T2), (proj1 T1) in C2. rewrite (proj1 T1), str_app_nil in C.
      exists (map rule_name rs), (map rule_name rs2). rewrite app_nil_r, map_app. auto.
    - destruct (gce_init _ _) as [tp|] eqn:T1; [|discriminate H]. cbn [bind] in H. apply init_texts in T1.
      match type of H with bind ?m _ = _ => destruct m as [rs|] eqn:C; [|discriminate H] end. cbn [bind] in H.
      match type of H with (if ?b then _ else _) = _ => destruct b; [discriminate H|] end. cbn [bind fst snd] in H.
      apply ok_inj in H. apply pair_equal_spec in H. destruct H as [H _]. apply pair_equal_spec in H. destruct H as [<- _].
      rewrite Af in C. cbn [andb] in C. apply convert_names in C. rewrite (proj1 T1), str_app_nil in C.
      exists (map rule_name rs), []. rewrite !app_nil_r. split; [reflexivity|]. split; [exact C|left; reflexivity]. }
  destruct P as (a & b & E & A & B'). split; [rewrite E; exact (two_passes _ _ _ A B')|].
  intros r I. apply (in_map rule_name) in I. rewrite E in I. apply in_app_or in I. destruct I as [I|I]; [exact (one_pass_tailed _ _ _ A I)|apply v6_tailed; exact (one_pass_tailed _ _ _ B' I)].
Qed.

(** ** One header *)
Lemma terms_sizes i mx today N : forall gs hc names count rules n', gce_terms i mx today hc names count gs = Ok (rules, n') -> pass_facts N mx count rules n'.
Proof.
  induction gs as [|g gs IH]; intros hc names count rules n' H; cbn [gce_terms] in H.
  - apply ok_inj in H. apply pair_equal_spec in H. destruct H as [<- <-]. constructor; [intros r []|cbn; lia|intros; lia].
  - destruct (t_stateless_reply _); [exact (IH _ _ _ _ _ H)|].
    match type of H with bind ?m _ = _ => destruct m as [name|]; [|discriminate H] end. cbn [bind] in H.
    destruct (str_in name names); [discriminate H|]. destruct (expired _ _); [exact (IH _ _ _ _ _ H)|].
    destruct (some _) in H; [discriminate H|]. destruct (active_on _ _); cbn [negb] in H; [|exact (IH _ _ _ _ _ H)].
    match type of H with bind ?m _ = _ => destruct m as [[[rs c2] n2]|] eqn:Ps; [|discriminate H] end. cbn [bind fst snd] in H.
    match type of H with bind ?m _ = _ => destruct m as [[more n3]|] eqn:Mr; [|discriminate H] end. cbn [bind fst snd] in H.
    apply ok_inj in H. apply pair_equal_spec in H. destruct H as [<- <-].
    apply (pass_sizes i mx N) in Ps. apply IH in Mr. destruct Ps as [P1 P2 P3], Mr as [M1 M2 M3]. constructor.
    + intros r I. apply in_app_or in I. destruct I; auto.
    + rewrite total_app. lia.
    + intros X Y. auto.
Qed.
Definition full (i : gce_info) (g : gce_term) : string :=
  if String.eqb (gi_direction i) "EGRESS" then append (t_name (g_term g)) "-e" else t_name (g_term g).
Lemma name_set name t : t_name (set_name name t) = name /\ t_owner (set_name name t) = t_owner t.
Proof. destruct t. split; reflexivity. Qed.
Lemma terms_names i mx today : forall gs hc names count rules n', gce_terms i mx today hc names count gs = Ok (rules, n') ->
  (forall g g', In g gs -> In g' gs -> ~ extends (full i g') (full i g)) ->
  NoDup (map rule_name rules) /\ forall r, In r rules -> exists g, In g gs /\ ~ In (full i g) names /\ tailed (prefixed (gi_network i) (full i g)) (rule_name r).
Proof.
  induction gs as [|g gs IH]; intros hc names count rules n' H X; cbn [gce_terms] in H.
  - apply ok_inj in H. apply pair_equal_spec in H. destruct H as [<- <-]. split; [constructor|intros r []].
  - assert (X' : forall a b, In a gs -> In b gs -> ~ extends (full i b) (full i a)) by (intros a b A B; apply X; right; assumption).
    assert (Skip : forall names' rs, (forall s, In s names -> In s names') -> NoDup (map rule_name rs) /\ (forall r, In r rs -> exists g, In g gs /\ ~ In (full i g) names' /\ tailed (prefixed (gi_network i) (full i g)) (rule_name r)) ->
      NoDup (map rule_name rs) /\ forall r, In r rs -> exists g0, In g0 (g :: gs) /\ ~ In (full i g0) names /\ tailed (prefixed (gi_network i) (full i g0)) (rule_name r)).
    { intros names' rs S [A B]. split; [exact A|]. intros r I. destruct (B r I) as (g0 & B1 & B2 & B3). exists g0. split; [right; exact B1|]. split; [intros Y; apply B2, S, Y|exact B3]. }
    destruct (t_stateless_reply _); [exact (Skip names _ (fun s I => I) (IH _ _ _ _ _ H X'))|].
    match type of H with bind ?m _ = _ => destruct m as [name|] eqn:Nm; [|discriminate H] end. cbn [bind] in H. apply length_same in Nm. change (name = full i g) in Nm.
    destruct (str_in name names) eqn:New; [discriminate H|].
    destruct (expired _ _); [exact (Skip (name :: names) _ (fun s I => or_intror I) (IH _ _ _ _ _ H X'))|].
    destruct (some _) in H; [discriminate H|]. destruct (active_on _ _); cbn [negb] in H; [|exact (Skip (name :: names) _ (fun s I => or_intror I) (IH _ _ _ _ _ H X'))].
    match type of H with bind ?m _ = _ => destruct m as [[[rs c2] n2]|] eqn:Ps; [|discriminate H] end. cbn [bind fst snd] in H.
    match type of H with bind ?m _ = _ => destruct m as [[more n3]|] eqn:Mr; [|discriminate H] end. cbn [bind fst snd] in H.
    apply ok_inj in H. apply pair_equal_spec in H. destruct H as [<- <-]. apply pass_names in Ps. cbn [g_term] in Ps. rewrite (proj1 (name_set _ _)) in Ps. destruct Ps as [P1 P2].
    destruct (IH _ _ _ _ _ Mr X') as [M1 M2].
    assert (NI : ~ In name names) by (intros Y; apply str_in_spec in Y; congruence).
    split.
    + rewrite map_app. clear - P1 P2 M1 M2 X Nm.
      assert (D : forall s, In s (map rule_name rs) -> In s (map rule_name more) -> False).
      { intros s A B. apply in_map_iff in A, B. destruct A as (r & <- & A), B as (r' & E & B). destruct (M2 r' B) as (g' & G1 & G2 & G3). rewrite E in G3. specialize (P2 r A).
        assert (Pf : exists p, forall n', prefixed (gi_network i) n' = append p n') by (unfold prefixed; destruct (is_empty _); [exists ""; reflexivity|exists (append (last_part (gi_network i)) "-"); intros; rewrite str_app_assoc; reflexivity]).
        destruct Pf as (p & Pf'). rewrite Pf' in P2, G3. subst name.
        refine (tailed_apart _ _ _ _ _ _ P2 G3).
        - intros Y. apply append_inj_l in Y. apply G2. left. exact Y.
        - rewrite extends_base. apply X; [right; exact G1|left; reflexivity].
        - rewrite extends_base. apply X; [left; reflexivity|right; exact G1]. }
      clear - P1 M1 D. revert P1 D. generalize (map rule_name rs). intros l P1. induction P1 as [|s a Nn A IH]; intros D; [exact M1|]. cbn [app]. constructor.
      * intros I. apply in_app_or in I. destruct I as [I|I]; [exact (Nn I)|exact (D s (or_introl eq_refl) I)].
      * apply IH. intros s' I. apply D. right. exact I.
    + intros r I. apply in_app_or in I. destruct I as [I|I].
      * exists g. split; [left; reflexivity|]. rewrite <- Nm. split; [exact NI|exact (P2 r I)].
      * destruct (M2 r I) as (g' & G1 & G2 & G3). exists g'. split; [right; exact G1|]. split; [intros Y; apply G2; right; exact Y|exact G3].
Qed.
Lemma pass_described i mx r : forall vs g comment count rules c' n', gce_pass i mx g vs comment count = Ok (rules, c', n') ->
  (owner_line (t_owner (g_term g)) = [] \/ exists v, vs = [v]) ->
  (owner_line (t_owner (g_term g)) = [] -> c' = comment) /\
  (In r rules -> assoc "description" r = Some (JStr (slice_to (join " " (comment ++ owner_line (t_owner (g_term g)))) 2047))).
Proof.
  induction vs as [|v vs IH]; intros g comment count rules c' n' H O; cbn [gce_pass] in H.
  - apply ok_inj in H. apply pair_equal_spec in H. destruct H as [H <-]. apply pair_equal_spec in H. destruct H as [<- <-]. split; [reflexivity|intros []].
  - destruct (gce_init _ _) as [tp|] eqn:T; [|discriminate H]. cbn [bind] in H. apply init_texts in T.
    match type of H with bind ?m _ = _ => destruct m as [rs|] eqn:C; [|discriminate H] end. cbn [bind] in H. apply convert_limits in C. destruct C as [C _].
    match type of H with (if ?b then _ else _) = _ => destruct b eqn:B; [discriminate H|] end.
    match type of H with bind ?m _ = _ => destruct m as [[[more c2] n2]|] eqn:M; [|discriminate H] end. cbn [bind fst snd] in H.
    apply ok_inj in H. apply pair_equal_spec in H. destruct H as [H <-]. apply pair_equal_spec in H. destruct H as [<- <-].
    destruct O as [O|(v' & O)].
    + destruct (IH _ _ _ _ _ _ M) as [M1 M2]; [left; cbn [g_term]; rewrite (proj1 (proj2 T)); exact O|]. cbn [g_term] in M1, M2. rewrite (proj1 (proj2 T)) in M1, M2. rewrite O, !app_nil_r in *. split; [intros _; apply M1; reflexivity|].
      intros I. apply in_app_or in I. destruct I as [I|I]; [apply C, I|apply M2, I].
    + injection O as -> ->. cbn [gce_pass] in M. apply ok_inj in M. apply pair_equal_spec in M. destruct M as [M _]. apply pair_equal_spec in M. destruct M as [<- <-].
      split; [intros ->; apply app_nil_r|]. intros I. rewrite app_nil_r in I. apply C, I.
Qed.
Lemma terms_described i mx today r : forall gs hc names count rules n', gce_terms i mx today hc names count gs = Ok (rules, n') ->
  (forall g, In g gs -> owner_line (t_owner (g_term g)) = [] \/ (t_comment (g_term g) <> [] /\ gi_af i <> "mixed")) -> In r rules ->
  exists g, In g gs /\ in_force today (g_term g) /\ tailed (prefixed (gi_network i) (full i g)) (rule_name r) /\
    assoc "description" r = Some (JStr (slice_to (join " " ((if some (t_comment (g_term g)) then t_comment (g_term g) else hc) ++ owner_line (t_owner (g_term g)))) 2047)).
Proof.
  induction gs as [|g gs IH]; intros hc names count rules n' H O I; cbn [gce_terms] in H.
  - apply ok_inj in H. apply pair_equal_spec in H. destruct H as [<- <-]. destruct I.
  - assert (O' : forall g, In g gs -> owner_line (t_owner (g_term g)) = [] \/ (t_comment (g_term g) <> [] /\ gi_af i <> "mixed")) by (intros; apply O; right; assumption).
    assert (Skip : forall P : gce_term -> Prop, (exists g', In g' gs /\ P g') -> exists g', In g' (g :: gs) /\ P g') by (intros P (g' & A & B); exists g'; split; [right; exact A|exact B]).
    destruct (t_stateless_reply _); [exact (Skip _ (IH _ _ _ _ _ H O' I))|].
    match type of H with bind ?m _ = _ => destruct m as [name|] eqn:Nm; [|discriminate H] end. cbn [bind] in H. apply length_same in Nm. change (name = full i g) in Nm.
    destruct (str_in name names) eqn:New; [discriminate H|].
    destruct (expired today (g_term g)) eqn:Ex; [exact (Skip _ (IH _ _ _ _ _ H O' I))|]. rewrite valid_expired in Ex. apply negb_false_iff, valid_force in Ex.
    destruct (some (t_option _)) in H; [discriminate H|]. destruct (active_on _ _); cbn [negb] in H; [|exact (Skip _ (IH _ _ _ _ _ H O' I))].
    match type of H with bind ?m _ = _ => destruct m as [[[rs c2] n2]|] eqn:Ps; [|discriminate H] end. cbn [bind fst snd] in H.
    match type of H with bind ?m _ = _ => destruct m as [[more n3]|] eqn:Mr; [|discriminate H] end. cbn [bind fst snd] in H.
    apply ok_inj in H. apply pair_equal_spec in H. destruct H as [<- <-].
    assert (Pn := pass_names _ _ _ _ _ _ _ _ Ps). cbn [g_term] in Pn. rewrite (proj1 (name_set _ _)) in Pn.
    apply (pass_described _ _ r) in Ps; cbn [g_term] in Ps; rewrite ?(proj2 (name_set _ _)) in Ps.
    2:{ cbn [g_term]. rewrite (proj2 (name_set _ _)). destruct (O g (or_introl eq_refl)) as [Og|[_ Og]]; [left; exact Og|right].
        unfold gce_families. apply String.eqb_neq in Og. rewrite Og. destruct (String.eqb (gi_af i) "inet6"); eauto. }
    destruct Ps as [P1 P2]. apply in_app_or in I. destruct I as [I|I].
    + exists g. split; [left; reflexivity|]. split; [exact Ex|]. rewrite <- Nm. split; [apply Pn, I|]. rewrite (P2 I). destruct (some (t_comment (g_term g))); reflexivity.
    + apply Skip. assert (S : (if negb (some (t_comment (g_term g))) then c2 else hc) = hc).
      { destruct (some (t_comment (g_term g))) eqn:Sc; cbn [negb]; [reflexivity|]. apply some_false in Sc. apply P1. destruct (O g (or_introl eq_refl)) as [Og|[Og _]]; [exact Og|contradiction]. }
      rewrite S in Mr. exact (IH _ _ _ _ _ Mr O' I).
Qed.
Lemma fill_texts i g : same_texts (g_term g) (g_term (fill_default_deny i g)) /\ t_option (g_term (fill_default_deny i g)) = t_option (g_term g).
Proof. unfold fill_default_deny. cbn [g_term]. destruct g as [t pr sa ta]. cbn [g_term]. destruct (String.eqb (gi_direction i) "EGRESS"); destruct t; repeat split. Qed.
Lemma fill_in i g' : forall gs, In g' (fill_last i gs) -> exists g, In g gs /\ same_texts (g_term g) (g_term g') /\ t_expiration (g_term g') = t_expiration (g_term g).
Proof.
  assert (S : forall g, exists g0, In g0 [g] /\ same_texts (g_term g0) (g_term g) /\ t_expiration (g_term g) = t_expiration (g_term g0)) by (intros g; exists g; split; [left; reflexivity|split; [apply texts_refl|reflexivity]]).
  induction gs as [|g gs IH]; intros I; cbn [fill_last] in I; [destruct I|]. destruct gs as [|g2 gs].
  - destruct I as [<-|[]]. exists g. split; [left; reflexivity|]. destruct (is_default_deny g); [split; [apply fill_texts|]|split; [apply texts_refl|reflexivity]].
    destruct (fill_fields i g) as (_ & _ & _ & _ & _ & _ & _ & _ & _ & _ & F & _). exact F.
  - destruct I as [<-|I]; [exists g; split; [left; reflexivity|split; [apply texts_refl|reflexivity]]|]. destruct (IH I) as (g0 & A & B). exists g0. split; [right; exact A|exact B].
Qed.
Lemma texts_full i g g' : same_texts (g_term g) (g_term g') -> full i g' = full i g.
Proof. intros (N & _). unfold full. rewrite N. reflexivity. Qed.
Lemma extends_e a b : ~ extends (append a "-e") (append b "-e") \/ extends a b.
Proof.
  destruct (string_dec a b) as [->|N].
  - left. intros (x & E). rewrite str_app_assoc in E. apply append_inj_l in E. discriminate E.
  - assert (Dec : (exists z, a = append b (append "-" z)) \/ ~ (exists z, a = append b (append "-" z))).
    { clear N. revert a. induction b as [|c b IH]; intros a.
      - destruct a as [|c a]; [right; intros (z & E); discriminate E|]. destruct (ascii_dec c "-") as [->|N]; [left; exists a; reflexivity|right; intros (z & E)].
        cbn [append] in E. injection E as E _. contradiction.
      - destruct a as [|c' a]; [right; intros (z & E); discriminate E|]. destruct (ascii_dec c' c) as [->|N]; [|right; intros (z & E); cbn [append] in E; injection E as E _; contradiction].
        destruct (IH a) as [(z & ->)|X]; [left; exists z; reflexivity|right; intros (z & E); cbn [append] in E; injection E as E; apply X; exists z; exact E]. }
    destruct Dec as [D|D]; [right; exact D|]. left. intros (x & E).
    refine (tailed_apart a b (append a "-e") N D _ (or_intror (ex_intro _ "e" eq_refl)) _).
    + intros (z & ->). rewrite !str_app_assoc in E.
      assert (L := f_equal String.length E). rewrite !GenProofs.length_app in L. cbn in L. lia.
    + right. exists (append "e" (append "-" x)). rewrite E, str_app_assoc. reflexivity.
Qed.

(** ** Whole policies *)
Lemma translate_sizes order today N : forall fs mx count rules, gce_translate order today mx count fs = Ok rules ->
  (forall r, In r rules -> within_limits r) /\
  ((exists h gs rest, fs = (h, gs) :: rest /\ gi_max (gce_options order (gh_options h)) <> None) \/ 0 < mx <= N ->
   (forall h gs n, In (h, gs) fs -> gi_max (gce_options order (gh_options h)) = Some n -> 0 < n <= N) -> count <= N -> count + total_size rules <= N).
Proof.
  induction fs as [|[h gs] fs IH]; intros mx count rules H; cbn [gce_translate] in H.
  - apply ok_inj in H. subst. split; [intros r []|]. intros _ _ C. cbn. lia.
  - destruct (negb (some gs)); [discriminate H|].
    match type of H with bind ?m _ = _ => destruct m as [[rs n]|] eqn:T; [|discriminate H] end. cbn [bind fst snd] in H.
    match type of H with bind ?m _ = _ => destruct m as [more|] eqn:M; [|discriminate H] end. cbn [bind] in H. apply ok_inj in H. subst rules.
    apply (terms_sizes _ _ _ N) in T. destruct T as [T1 T2 T3]. destruct (IH _ _ _ M) as [M1 M2]. split.
    + intros r I. apply in_app_or in I. destruct I; auto.
    + intros F A C. rewrite total_app.
      assert (X : 0 < match gi_max (gce_options order (gh_options h)) with Some n => n | None => mx end <= N).
      { destruct (gi_max _) as [m|] eqn:G; [apply (A h gs); [left; reflexivity|exact G]|]. destruct F as [(h' & gs' & rest & E & F)|F]; [injection E as -> -> ->; contradiction|exact F]. }
      specialize (M2 (or_intror X) (fun h' gs' m I => A h' gs' m (or_intror I)) (T3 X C)). lia.
Qed.
Theorem gce_limits order today fs rules r : gce_policy order today fs = Ok rules -> In r rules -> within_limits r.
Proof.
  unfold gce_policy. intros H. match type of H with bind ?m _ = _ => destruct m; [|discriminate H] end. cbn [bind] in H. apply (translate_sizes _ _ 0) in H. apply H.
Qed.
Theorem gce_quota order today N h gs fs rules : gce_policy order today ((h, gs) :: fs) = Ok rules ->
  gi_max (gce_options order (gh_options h)) <> None ->
  (forall h' gs' n, In (h', gs') ((h, gs) :: fs) -> gi_max (gce_options order (gh_options h')) = Some n -> 0 < n <= N) -> total_size rules <= N.
Proof.
  unfold gce_policy. intros H F A. match type of H with bind ?m _ = _ => destruct m; [|discriminate H] end. cbn [bind] in H. apply (translate_sizes _ _ N) in H. destruct H as [_ H].
  specialize (H (or_introl (ex_intro _ h (ex_intro _ gs (ex_intro _ fs (conj eq_refl F))))) A).
  assert (0 < N) by (destruct (gi_max (gce_options order (gh_options h))) as [n|] eqn:G; [|contradiction]; specialize (A h gs n (or_introl eq_refl) G); lia). lia.
Qed.
Lemma one_header order today h gs rules : gce_policy order today [(h, gs)] = Ok rules ->
  exists mx n', gce_terms (gce_options order (gh_options h)) mx today (gh_comment h) [] 0 (fill_last (gce_options order (gh_options h)) gs) = Ok (rules, n').
Proof.
  unfold gce_policy. intros H. match type of H with bind ?m _ = _ => destruct m; [|discriminate H] end. cbn [bind gce_translate] in H.
  destruct (negb (some gs)); [discriminate H|].
  match type of H with bind ?m _ = _ => destruct m as [[rs n]|] eqn:T; [|discriminate H] end. cbn [bind fst snd] in H. apply ok_inj in H. rewrite app_nil_r in H. subst rs. eauto.
Qed.
Lemma named r : within_limits r -> name_of r = Some (JStr (rule_name r)).
Proof. intros W. destruct (wl_name r W) as (s & E & _). unfold name_of, rule_name. rewrite E. reflexivity. Qed.
Lemma nodup_map {A B} (f : A -> B) l : (forall x y, f x = f y -> x = y) -> NoDup l -> NoDup (map f l).
Proof. intros F N. exact (FinFun.Injective_map_NoDup F N). Qed.
Theorem gce_names_unique order today h gs rules : gce_policy order today [(h, gs)] = Ok rules ->
  (forall g g', In g gs -> In g' gs -> ~ extends (t_name (g_term g')) (t_name (g_term g))) -> NoDup (map name_of rules).
Proof.
  intros H X. assert (W := fun r => gce_limits _ _ _ _ r H). destruct (one_header _ _ _ _ _ H) as (mx & n' & T). apply terms_names in T.
  - destruct T as [T _]. replace (map name_of rules) with (map (fun s => Some (JStr s)) (map rule_name rules)).
    + apply nodup_map; [|exact T]. intros a b E. injection E as E. exact E.
    + rewrite map_map. apply map_ext_in. intros r I. symmetry. apply named, W, I.
  - intros a b A B. apply fill_in in A, B. destruct A as (a' & A & Ta & _), B as (b' & B & Tb & _). rewrite (texts_full _ _ _ Ta), (texts_full _ _ _ Tb).
    unfold full. destruct (String.eqb _ _); [|apply X; assumption]. destruct (extends_e (t_name (g_term b')) (t_name (g_term a'))) as [N|E]; [exact N|]. intros _. exact (X a' b' A B E).
Qed.
Theorem gce_described order today h gs rules r : gce_policy order today [(h, gs)] = Ok rules ->
  (forall g, In g gs -> t_owner (g_term g) = None \/ (t_comment (g_term g) <> [] /\ gi_af (gce_options order (gh_options h)) <> "mixed")) -> In r rules ->
  exists g, In g gs /\ in_force today (g_term g) /\ assoc "description" r = Some (JStr (described h (g_term g))) /\
    exists s pre, name_of r = Some (JStr s) /\ tailed (append pre (t_name (g_term g))) s /\
      (gi_network (gce_options order (gh_options h)) = "" -> pre = "").
Proof.
  intros H O I. assert (W := gce_limits _ _ _ _ r H I). destruct (one_header _ _ _ _ _ H) as (mx & n' & T).
  apply (terms_described _ _ _ r) in T; [| |exact I].
  2:{ intros g G. apply fill_in in G. destruct G as (g' & G & (_ & To & Tc) & _). rewrite To, Tc. destruct (O g' G) as [E|E]; [left; rewrite E; reflexivity|right; exact E]. }
  destruct T as (g' & G & F & Tl & D). apply fill_in in G. destruct G as (g & G & Tx & Te). exists g. split; [exact G|].
  split; [unfold in_force in *; rewrite Te in F; exact F|]. destruct Tx as (T1 & T2 & T3). rewrite T2, T3 in D. split; [exact D|].
  rewrite (texts_full _ _ _ (conj T1 (conj T2 T3))) in Tl.
  exists (rule_name r), (if is_empty (gi_network (gce_options order (gh_options h))) then "" else append (last_part (gi_network (gce_options order (gh_options h)))) "-").
  split; [exact (named r W)|]. split; [|intros ->; reflexivity].
  assert (Y : tailed (prefixed (gi_network (gce_options order (gh_options h))) (t_name (g_term g))) (rule_name r)).
  { unfold full in Tl. destruct (String.eqb _ _); [|exact Tl]. right.
    assert (Z : prefixed (gi_network (gce_options order (gh_options h))) (append (t_name (g_term g)) "-e") = append (prefixed (gi_network (gce_options order (gh_options h))) (t_name (g_term g))) "-e").
    { unfold prefixed. destruct (is_empty _); [reflexivity|]. rewrite !str_app_assoc. reflexivity. }
    rewrite Z in Tl. destruct Tl as [->|(x & ->)]; [exists "e"; reflexivity|]. rewrite str_app_assoc. eexists. reflexivity. }
  unfold prefixed in Y. destruct (is_empty _); [exact Y|]. rewrite str_app_assoc. exact Y.
Qed.

(** ** Expired terms *)
Definition live (today : Z) (gs : list gce_term) : list gce_term := filter (fun g => valid_on today (g_term g)) gs.
Lemma deny_raises i mx g comment count name : is_default_deny g = true -> (gi_direction i = "INGRESS" \/ gi_direction i = "EGRESS") ->
  exists e, gce_pass i mx (mkGceTerm (set_name name (g_term g)) (g_priority g) (g_source_accounts g) (g_target_accounts g)) (gce_families (gi_af i)) comment count = Raise e.
Proof.
  intros D Dir. destruct (default_deny_fields g D) as (_ & _ & _ & [[N1 N2] [N3 N4] [N5 N6] N7 [N8 N9] N10]).
  assert (V : exists v vs, gce_families (gi_af i) = v :: vs) by (unfold gce_families; destruct (String.eqb _ _); [eauto|]; destruct (String.eqb _ _); eauto).
  destruct V as (v & vs & ->). cbn [gce_pass g_term]. unfold gce_init.
  assert (F : t_protocol (set_name name (g_term g)) = t_protocol (g_term g) /\ t_source_address (set_name name (g_term g)) = t_source_address (g_term g) /\
    t_destination_address (set_name name (g_term g)) = t_destination_address (g_term g) /\ t_source_tag (set_name name (g_term g)) = t_source_tag (g_term g)) by (destruct (g_term g); repeat split).
  destruct F as (F1 & F2 & F3 & F4). rewrite F1, N7. cbn [term_protocols map]. destruct (term_protocols gce_numbered []) as [ps|e]; [|exists e; reflexivity]. cbn [bind].
  unfold validate_direction. rewrite F2, F3, F4, N1, N3, N8. destruct Dir as [-> | ->]; cbn; eauto.
Qed.
Lemma terms_live i mx today : (gi_direction i = "INGRESS" \/ gi_direction i = "EGRESS") -> forall gs hc names names' count x,
  gce_terms i mx today hc names count (fill_last i gs) = Ok x -> (forall s, In s names' -> In s names) ->
  gce_terms i mx today hc names' count (fill_last i (live today gs)) = Ok x.
Proof.
  intros Dir. induction gs as [|g gs IH]; intros hc names names' count x H S; [exact H|].
  assert (Skip : forall names'', (forall s, In s names' -> In s names'') -> gce_terms i mx today hc names'' count (fill_last i gs) = Ok x ->
    gce_terms i mx today hc names' count (fill_last i (live today gs)) = Ok x) by (intros n2 S2 H2; exact (IH _ _ _ _ _ H2 S2)).
  unfold live. cbn [filter]. fold (live today gs).
  (* the head as it is rendered *)
  assert (Hd : exists g', fill_last i (g :: gs) = g' :: fill_last i gs /\ (g' = g \/ (gs = [] /\ is_default_deny g = true /\ g' = fill_default_deny i g))).
  { destruct gs as [|g2 gs']; [|exists g; split; [reflexivity|left; reflexivity]]. cbn [fill_last]. destruct (is_default_deny g) eqn:D; eexists; (split; [reflexivity|]); auto. }
  destruct Hd as (g' & Ef & Hd).
  assert (Same : same_texts (g_term g) (g_term g') /\ t_option (g_term g') = t_option (g_term g) /\ t_stateless_reply (g_term g') = t_stateless_reply (g_term g) /\
    t_expiration (g_term g') = t_expiration (g_term g) /\ t_platform (g_term g') = t_platform (g_term g) /\ t_platform_exclude (g_term g') = t_platform_exclude (g_term g)).
  { destruct Hd as [->|(_ & _ & ->)]; [split; [apply texts_refl|repeat split]|]. destruct (fill_texts i g) as [A B]. destruct (fill_fields i g) as (_ & _ & _ & _ & _ & _ & _ & _ & _ & _ & F1 & F2 & F3 & F4).
    exact (conj A (conj B (conj F4 (conj F1 (conj F2 F3))))). }
  rewrite Ef in H. destruct (valid_on today (g_term g)) eqn:V.
  2:{ cbn [gce_terms] in H. destruct Same as (_ & _ & Sr & Se & _). 
      destruct (t_stateless_reply (g_term g')); [exact (Skip names S H)|].
      match type of H with bind ?m _ = _ => destruct m as [name|] eqn:Nm; [|discriminate H] end. cbn [bind] in H.
      destruct (str_in name names) eqn:New; [discriminate H|].
      assert (E : expired today (g_term g') = true) by (unfold expired; rewrite Se; change (expired today (g_term g) = true); rewrite valid_expired, V; reflexivity).
      rewrite E in H. exact (Skip (name :: names) (fun s I => or_intror (S s I)) H). }
  (* the head as it is rendered among the live terms *)
  assert (Hl : exists g2, fill_last i (g :: live today gs) = g2 :: fill_last i (live today gs) /\ (g2 = g' \/ (g' = g /\ is_default_deny g = true /\ g2 = fill_default_deny i g))).
  { destruct gs as [|a gs'].
    - exists g'. split; [exact Ef|left; reflexivity].
    - assert (Gg : g' = g) by (destruct Hd as [->|(X & _)]; [reflexivity|discriminate X]). subst g'. destruct (live today (a :: gs')) as [|b l]; [|exists g; split; [reflexivity|left; reflexivity]].
      cbn [fill_last]. destruct (is_default_deny g) eqn:D; eexists; (split; [reflexivity|]); auto. }
  destruct Hl as (g2 & El & Hl). rewrite El. cbn [gce_terms] in H |- *.
  destruct Hl as [->|(-> & D & ->)].
  - destruct (t_stateless_reply (g_term g')); [exact (Skip names S H)|].
    match type of H with bind ?m _ = _ => destruct m as [name|] eqn:Nm; [|discriminate H] end. cbn [bind] in H |- *.
    destruct (str_in name names) eqn:New; [discriminate H|].
    assert (New' : str_in name names' = false) by (destruct (str_in name names') eqn:Y; [|reflexivity]; apply str_in_spec, S, str_in_spec in Y; congruence). rewrite New'.
    assert (S' : forall s, In s (name :: names') -> In s (name :: names)) by (intros s [->|I]; [left; reflexivity|right; exact (S s I)]).
    destruct (expired _ _); [exact (IH _ _ _ _ _ H S')|].
    destruct (some _) in H |- *; [discriminate H|]. destruct (active_on _ _); cbn [negb] in H |- *; [|exact (IH _ _ _ _ _ H S')].
    match type of H with bind ?m _ = _ => destruct m as [[[rs c2] n2]|] eqn:Ps; [|discriminate H] end. cbn [bind fst snd] in H |- *.
    match type of H with bind ?m _ = _ => destruct m as [y|] eqn:Mr; [|discriminate H] end. rewrite (IH _ _ _ _ _ Mr S'). exact H.
  - destruct (fill_texts i g) as [(B1 & _) B2]. destruct (fill_fields i g) as (_ & _ & _ & _ & _ & _ & _ & _ & _ & _ & F1 & F2 & F3 & F4).
    rewrite F4. destruct (t_stateless_reply (g_term g)); [exact (Skip names S H)|]. rewrite B1.
    match type of H with bind ?m _ = _ => destruct m as [name|] eqn:Nm; [|discriminate H] end. cbn [bind] in H |- *.
    destruct (str_in name names) eqn:New; [discriminate H|].
    assert (New' : str_in name names' = false) by (destruct (str_in name names') eqn:Y; [|reflexivity]; apply str_in_spec, S, str_in_spec in Y; congruence). rewrite New'.
    assert (S' : forall s, In s (name :: names') -> In s (name :: names)) by (intros s [->|I]; [left; reflexivity|right; exact (S s I)]).
    assert (E : expired today (g_term (fill_default_deny i g)) = expired today (g_term g)) by (unfold expired; rewrite F1; reflexivity). rewrite E.
    destruct (expired today (g_term g)); [exact (IH _ _ _ _ _ H S')|]. rewrite B2. destruct (some (t_option (g_term g))); [discriminate H|].
    assert (A : active_on "gce" (g_term (fill_default_deny i g)) = active_on "gce" (g_term g)) by (unfold active_on; rewrite F2, F3; reflexivity). rewrite A.
    destruct (active_on "gce" (g_term g)); cbn [negb] in H |- *; [|exact (IH _ _ _ _ _ H S')]. exfalso.
    match type of H with bind (gce_pass _ _ _ _ ?c _) _ = _ => destruct (deny_raises i mx g c count name D Dir) as (e & R) end. rewrite R in H. discriminate H.
Qed.
Theorem gce_expired order today fs rules : gce_policy order today fs = Ok rules ->
  (forall h gs, In (h, gs) fs -> exists g, In g gs /\ in_force today (g_term g)) ->
  gce_policy order today (map (fun f => (fst f, live today (snd f))) fs) = Ok rules.
Proof.
  intros H L. unfold gce_policy in *. destruct (check_tokens _ _ _) as [u|] eqn:C in H; [|discriminate H]. cbn [bind] in H. 
  assert (C' : check_tokens "gce" gce_tokens (map (fun f => (["gce"], map g_term (snd f))) (map (fun f => (fst f, live today (snd f))) fs)) = Ok u).
  { unfold check_tokens in *. destruct (get_supported_tokens gce_tokens) as [k|]; [|discriminate C]. cbn [bind] in *.
    match type of C with (if ?b then _ else _) = _ => destruct b eqn:B; [discriminate C|] end.
    match goal with |- (if ?b then _ else _) = _ => destruct b eqn:B'; [|exact C] end. exfalso.
    apply existsb_exists in B'. destruct B' as (f & If & Bf). rewrite map_map in If. apply in_map_iff in If. destruct If as ([h gs] & <- & If). cbn [fst snd] in Bf.
    apply andb_true_iff in Bf. destruct Bf as [B1 B2]. apply existsb_exists in B2. destruct B2 as (t & It & Bt). apply in_map_iff in It. destruct It as (g & <- & Ig). apply filter_In in Ig.
    assert (Z : existsb (fun f => str_in "gce" (fst f) && existsb (fun t => active_on "gce" t && existsb (field_error k) (term_fields t)) (snd f)) (map (fun f => (["gce"], map g_term (snd f))) fs) = true); [|congruence].
    apply existsb_exists. exists (["gce"], map g_term gs). split; [apply in_map_iff; exists (h, gs); split; [reflexivity|exact If]|]. cbn [fst snd]. rewrite B1. cbn [andb].
    apply existsb_exists. exists (g_term g). split; [apply in_map, Ig|exact Bt]. }
  rewrite C'. cbn [bind]. clear C C'. revert H L. generalize 0 at 1 3. generalize 0. revert rules.
  induction fs as [|[h gs] fs IH]; intros rules count mx H L; [exact H|]. cbn [map fst snd gce_translate] in *.
  destruct (L h gs (or_introl eq_refl)) as (g & Ig & Fg). apply valid_force in Fg.
  assert (Sg : some (live today gs) = true) by (apply some_true; intros E; assert (X : In g (live today gs)) by (apply filter_In; auto); rewrite E in X; destruct X).
  rewrite Sg. destruct (negb (some gs)); [discriminate H|]. cbn [negb].
  match type of H with bind ?m _ = _ => destruct m as [[rs n]|] eqn:T; [|discriminate H] end. cbn [bind fst snd] in H.
  rewrite (terms_live _ _ _ (options_direction order (gh_options h)) _ _ _ [] _ _ T (fun s I => I)). cbn [bind fst snd].
  match type of H with bind ?m _ = _ => destruct m as [more|] eqn:M; [|discriminate H] end. cbn [bind] in H.
  rewrite (IH _ _ _ M (fun h' gs' I => L h' gs' (or_intror I))). exact H.
Qed.

(** Proofs about the Terraform generator: names and numbers of the rules. *)
From Coq Require Import Lia ZifyBool ZifyNat Permutation.
From Verif Require Import SpecTf BaseFacts PyStrFacts GenProofs CiscoProofs GceProofs GceLimits GceNames TfRules TfPolicy.
Local Open Scope string_scope.
Local Open Scope list_scope.
Local Open Scope Z_scope.

Definition named (d : rule_dict) : Prop := exists s, assoc "name" d = Some (JStr s).
Lemma named_set k v d : k <> "name" -> named d -> named (jset k v d).
Proof. intros K (s & E). exists s. rewrite assoc_jset. apply not_eq_sym, String.eqb_neq in K. rewrite K. exact E. Qed.
Lemma named_name s d : named (jset "name" (JStr s) d).
Proof. exists s. rewrite assoc_jset. reflexivity. Qed.
Lemma named_if (b : bool) x y : named x -> named y -> named (if b then x else y).
Proof. destruct b; auto. Qed.
Definition clean (index : Z) (d : rule_dict) : Prop := named d /\ rule_priority d = Some index.
Lemma clean_set index k v d : k <> "name" -> k <> "priority" -> clean index d -> clean index (jset k v d).
Proof.
  intros K1 K2 [A B]. split; [apply named_set; assumption|]. unfold rule_priority in *. rewrite assoc_jset. apply not_eq_sym, String.eqb_neq in K2. rewrite K2. exact B.
Qed.
Lemma clean_if index (b : bool) x y : clean index x -> clean index y -> clean index (if b then x else y).
Proof. destruct b; auto. Qed.
Lemma clean_name index s d : clean index d -> clean index (jset "name" (JStr s) d).
Proof. intros [A B]. split; [apply named_name|]. unfold rule_priority in *. rewrite assoc_jset. exact B. Qed.
Lemma tf_dict_clean dir network m6 comment index g t d : tf_dict dir network m6 comment index g t = Ok d -> g_priority g = None -> clean index d.
Proof.
  intros H P. unfold tf_dict in H. rewrite P in H.
  set (d0 := [("description", JStr (join " " comment)); ("name", JStr (t_name t)); ("direction", JStr dir); ("priority", JNum index)]) in H.
  set (d1 := if is_empty network then d0 else jset "name" (JStr (append (last_part network) (append "-" (t_name t)))) (jset "network" (JStr network) d0)) in H.
  set (d2 := if m6 then jset "name" (JStr (append (rule_name d1) "-v6")) d1 else d1) in H.
  assert (D2 : clean index d2).
  { assert (D0 : clean index d0) by (split; [eexists|]; reflexivity).
    assert (D1 : clean index d1) by (apply clean_if; [exact D0|]; apply clean_name, clean_set; [discriminate|discriminate|exact D0]).
    apply clean_if; [apply clean_name|]; exact D1. }
  clearbody d2. clear d1 d0. cbv zeta in H.
  destruct (30 <? _)%nat; [discriminate H|]. destruct (70 <? _)%nat; [discriminate H|]. destruct (_ || _)%bool; [discriminate H|].
  match type of H with (if ?b then _ else _) = _ => destruct b; [discriminate H|] end. apply ok_inj in H. subst d.
  repeat first [apply clean_if|apply clean_set; [discriminate|discriminate|]|exact D2].
Qed.
Lemma tf_chunk_names key several d : key <> "name" -> forall cs i index, map rule_name (tf_chunks key several i index d cs) = map rule_name (chunk_rules key several i d cs).
Proof.
  intros K. induction cs as [|c cs IH]; intros i index; [reflexivity|]. cbn [tf_chunks chunk_rules map]. rewrite IH. f_equal.
  unfold rule_name. rewrite !assoc_jset. apply not_eq_sym, String.eqb_neq in K. rewrite K. reflexivity.
Qed.
Lemma tf_chunk_counted key several d : forall cs i index, counted index (tf_chunks key several i index d cs).
Proof.
  induction cs as [|c cs IH]; intros i index; cbn [tf_chunks counted]; [exact Logic.I|]. split; [|apply IH]. unfold rule_priority. rewrite assoc_jset. reflexivity.
Qed.
Lemma tf_rules_numbered dir network v m6 comment index g t ps rules : tf_rules dir network v m6 comment index g t ps = Ok (Some rules) -> g_priority g = None ->
  NoDup (map rule_name rules) /\ counted index rules.
Proof.
  intros H P. unfold tf_rules in H. destruct (tf_dict _ _ _ _ _ _ _) as [d|] eqn:E; [|discriminate H]. cbn [bind] in H.
  apply tf_dict_clean in E; [|exact P]. cbv zeta in H.
  repeat match type of H with (if ?b then _ else _) = _ => destruct b; [discriminate H|] end.
  destruct (t_action t) as [|a l]; [discriminate H|]. destruct (assoc a tf_actions) as [key|] eqn:Ea; [|discriminate H].
  match type of H with (if ?b then _ else _) = _ => destruct b; [discriminate H|] end. apply ok_inj in H.
  match type of H with Some ?x = _ => assert (X : x = rules) by congruence end. subst rules. clear H.
  assert (K : key <> "name" /\ key <> "priority").
  { apply assoc_in in Ea. destruct Ea as [Ea|[Ea|[]]]; injection Ea as _ <-; split; discriminate. }
  match goal with |- NoDup (map rule_name (if _ then tf_addresses _ _ _ ?x else _)) /\ _ => assert (D : clean index x); [|set (d' := x) in *] end.
  { apply clean_set; [apply K|apply K|]. apply clean_if; [apply clean_set; [discriminate|discriminate|]|]; exact E. }
  clearbody d'. destruct D as [(base & B) Pr].
  assert (Ch : forall k l, k <> "name" -> NoDup (map rule_name (tf_addresses k l index d')) /\ counted index (tf_addresses k l index d')).
  { intros k l0 Kn. split; [|apply tf_chunk_counted]. unfold tf_addresses. rewrite (tf_chunk_names _ _ _ Kn).
    destruct (address_names k l0 d' base Kn B) as (n & [N|N]); unfold address_rules in N; rewrite N; [constructor; [intros []|constructor]|apply numbered_nodup]. }
  destruct (some _); [apply Ch; discriminate|]. destruct (some _); [apply Ch; discriminate|].
  split; [constructor; [intros []|constructor]|]. split; [exact Pr|exact Logic.I].
Qed.
Definition in_row (index : Z) (ds : list rule_dict) (index' : Z) : Prop := exists rules, holds ds rules /\ counted index rules /\ index' = index + Zlen rules.
Lemma in_row_nil index : in_row index [] index.
Proof. exists []. split; [exact holds_nil|]. split; [exact Logic.I|cbn; lia]. Qed.
Lemma in_row_app a ds b es c : in_row a ds b -> in_row b es c -> in_row a (ds ++ es) c.
Proof.
  intros (x & H1 & C1 & ->) (y & H2 & C2 & ->). exists (x ++ y). split; [exact (holds_app _ _ _ _ H1 H2)|]. split; [apply counted_app; auto|].
  unfold Zlen. rewrite app_length. lia.
Qed.
Lemma tf_pass_row i mx : forall vs g comment count index ds c' n' x', tf_pass i mx g vs comment count index = Ok (ds, c', n', x') -> g_priority g = None -> in_row index ds x'.
Proof.
  induction vs as [|v vs IH]; intros g comment count index ds c' n' x' H P; cbn [tf_pass] in H.
  - four H. subst ds x'. apply in_row_nil.
  - destruct (tf_init _ _) as [tp|]; [|discriminate H]. cbn [bind] in H.
    match type of H with bind ?m _ = _ => destruct m as [rs|] eqn:C; [|discriminate H] end. cbn [bind] in H.
    match type of H with (if ?b then _ else _) = _ => destruct b; [discriminate H|] end.
    match type of H with bind ?m _ = _ => destruct m as [[[[more c2] n2] x2]|] eqn:M; [|discriminate H] end. cbn [bind fst snd] in H.
    four H. subst ds x'. apply IH in M; [|exact P]. refine (in_row_app _ _ _ _ _ _ M). clear M IH.
    unfold tf_convert in C. destruct (tf_rules _ _ _ _ _ _ _ _ _) as [[rules|]|] eqn:T; [| |discriminate C]; cbn [bind] in C; apply ok_inj in C; subst rs; [|apply in_row_nil].
    destruct (tf_rules_numbered _ _ _ _ _ _ _ _ _ _ T P) as [N Ct]. rewrite (by_name_map _ N). exists rules. split.
    { exists [rules]. split; [reflexivity|]. split; [apply app_nil_r|]. intros b [<-|[]]. exact N. }
    split; [exact Ct|]. cbn [fold_left]. unfold Zlen, dict_of. rewrite map_length. reflexivity.
Qed.
Lemma tf_terms_row i mx today : forall gs hc names count index ds n' x', tf_terms i mx today hc names count index gs = Ok (ds, n', x') ->
  (forall g, In g gs -> g_priority g = None) -> in_row index ds x'.
Proof.
  induction gs as [|g gs IH]; intros hc names count index ds n' x' H P; cbn [tf_terms] in H.
  - apply ok_inj in H. apply pair_equal_spec in H. destruct H as [H <-]. apply pair_equal_spec in H. destruct H as [<- _]. apply in_row_nil.
  - assert (P' : forall y, In y gs -> g_priority y = None) by (intros y Y; apply P; right; exact Y).
    destruct (t_stateless_reply _); [exact (IH _ _ _ _ _ _ _ H P')|].
    match type of H with bind ?m _ = _ => destruct m as [name|]; [|discriminate H] end. cbn [bind] in H.
    destruct (str_in name names); [discriminate H|]. destruct (expired _ _); [exact (IH _ _ _ _ _ _ _ H P')|].
    destruct (some _) in H; [discriminate H|]. destruct (active_on _ _); cbn [negb] in H; [|exact (IH _ _ _ _ _ _ _ H P')].
    match type of H with bind ?m _ = _ => destruct m as [[[[rs c2] n2] x2]|] eqn:Ps; [|discriminate H] end. cbn [bind fst snd] in H.
    match type of H with bind ?m _ = _ => destruct m as [[[more n3] x3]|] eqn:Mr; [|discriminate H] end. cbn [bind fst snd] in H.
    apply ok_inj in H. apply pair_equal_spec in H. destruct H as [H <-]. apply pair_equal_spec in H. destruct H as [<- _].
    apply tf_pass_row in Ps; [|exact (P g (or_introl eq_refl))]. exact (in_row_app _ _ _ _ _ Ps (IH _ _ _ _ _ _ _ Mr P')).
Qed.
Lemma tf_fill_priority i gs : (forall g, In g gs -> g_priority g = None) -> forall g, In g (tf_fill_last i gs) -> g_priority g = None.
Proof.
  induction gs as [|h [|k gs] IH]; intros P g I; [destruct I| |].
  - destruct I as [<-|[]]. destruct (is_default_deny h); exact (P h (or_introl eq_refl)).
  - change (tf_fill_last i (h :: k :: gs)) with (h :: tf_fill_last i (k :: gs)) in I. destruct I as [<-|I]; [apply P; left; reflexivity|].
    apply IH; [intros y Y; apply P; right; exact Y|exact I].
Qed.
Lemma tf_translate_row order today : forall fs mx count index ds, tf_translate order today mx count index fs = Ok ds ->
  (forall h gs g, In (h, gs) fs -> In g gs -> g_priority g = None) -> exists x', in_row index ds x'.
Proof.
  induction fs as [|[h gs] fs IH]; intros mx count index ds H P; cbn [tf_translate] in H.
  - apply ok_inj in H. subst ds. exists index. apply in_row_nil.
  - destruct (is_empty _) in H; [discriminate H|]. destruct (negb (some gs)); [discriminate H|].
    match type of H with bind ?m _ = _ => destruct m as [[[rs n] x]|] eqn:T; [|discriminate H] end. cbn [bind fst snd] in H.
    match type of H with bind ?m _ = _ => destruct m as [more|] eqn:M; [|discriminate H] end. cbn [bind] in H. apply ok_inj in H. subst ds.
    apply tf_terms_row in T; [|apply tf_fill_priority; intros g I; exact (P h gs g (or_introl eq_refl) I)].
    destruct (IH _ _ _ _ M) as (y & Y); [intros h' gs' g I J; exact (P h' gs' g (or_intror I) J)|]. exists y. exact (in_row_app _ _ _ _ _ T Y).
Qed.
Lemma counted_nth : forall rules n k r, counted n rules -> nth_error rules k = Some r -> rule_priority r = Some (n + Z.of_nat k).
Proof.
  induction rules as [|x rules IH]; intros n k r C E; [destruct k; discriminate E|]. destruct C as [C1 C2]. destruct k as [|k]; cbn [nth_error] in E.
  - injection E as <-. rewrite C1. f_equal. lia.
  - rewrite (IH _ _ _ C2 E). f_equal. lia.
Qed.
Theorem tf_numbers order today fs out : tf_policy order today fs = Ok out -> (forall h gs g, In (h, gs) fs -> In g gs -> g_priority g = None) ->
  exists rules, (forall r, (exists name, declares out name r) <-> In r rules) /\
    forall k r, nth_error rules k = Some r -> rule_priority r = Some (1 + Z.of_nat k).
Proof.
  intros H P. unfold tf_policy in H. destruct (check_tokens _ _ _); [|discriminate H]. cbn [bind] in H.
  destruct (tf_translate _ _ _ _ _ _) as [ds|] eqn:T; [|discriminate H]. cbn [bind] in H. apply ok_inj in H.
  destruct (tf_translate_row _ _ _ _ _ _ _ T P) as (x & rules & Hd & Ct & _). exists rules. split; [|intros k r E; exact (counted_nth _ _ _ _ Ct E)].
  intros r. rewrite <- (holds_in _ _ r Hd). unfold declares. subst out. split.
  - intros (name & top & kinds & blocks & d & E1 & E2 & E3 & E4 & E5). injection E1 as <-. injection E2 as <-. injection E3 as <-.
    apply in_map_iff in E4. destruct E4 as (d' & E & I). injection E as ->. exists d, name. auto.
  - intros (d & name & I & A). exists name. eexists. eexists. eexists. exists d. split; [reflexivity|]. split; [reflexivity|]. split; [reflexivity|].
    split; [apply in_map, I|exact A].
Qed.

(** The whole table: which chains it makes, and what it decides. *)
From Coq Require Import Lia ZifyBool ZifyNat.
From Verif Require Import SpecIptables BaseFacts PyStrFacts TextProofs PortProofs GenProofs GenProofs2 CiscoProofs CiscoProofs2 CiscoTerm CiscoAcl WrapProofs JuniperTerm JuniperFilter
  IptText IPFacts PolicyProofs IptProofs IptLine IptPart IptCombo IptAddr IptTerm IptRule IptTermExact IptFilter.
Local Open Scope string_scope.
Local Open Scope list_scope.
Local Open Scope Z_scope.

(** ** Rules of a chain *)

Lemma rules_in_app x a b : rules_in x (a ++ b) = rules_in x a ++ rules_in x b.
Proof. apply flat_map_app. Qed.
Lemma rules_quiet x l : Forall quiet l -> rules_in x l = [].
Proof. induction 1 as [|c l Q F IH]; [reflexivity|]. cbn [rules_in flat_map]. unfold rules_in in IH. rewrite IH. destruct c; [reflexivity|reflexivity|reflexivity|destruct Q]. Qed.
Lemma rules_map x chain rs : rules_in x (map (Rule chain) rs) = if String.eqb chain x then rs else [].
Proof.
  induction rs as [|r rs IH]; [destruct (String.eqb chain x); reflexivity|]. cbn [map]. unfold rules_in in *. cbn [flat_map]. rewrite IH. destruct (String.eqb chain x); reflexivity.
Qed.
Lemma rules_block x sp f b : f <> fst b -> rules_in x (block_cmds sp f b) = if String.eqb (fst b) x then snd b else if String.eqb f x then [jump_rule (fst b)] else [].
Proof.
  intros N. unfold block_cmds.
  assert (J : forall r, rules_in x [Rule f r] = if String.eqb f x then [r] else []) by (intros r; unfold rules_in; cbn [flat_map]; destruct (String.eqb f x); reflexivity).
  assert (E : rules_in x (NewChain (fst b) :: (if sp then map (Rule (fst b)) (snd b) ++ [Rule f (jump_rule (fst b))] else Rule f (jump_rule (fst b)) :: map (Rule (fst b)) (snd b)))
            = if sp then rules_in x (map (Rule (fst b)) (snd b)) ++ rules_in x [Rule f (jump_rule (fst b))] else rules_in x [Rule f (jump_rule (fst b))] ++ rules_in x (map (Rule (fst b)) (snd b))).
  { destruct sp; rewrite <- rules_in_app; reflexivity. }
  rewrite E, J, rules_map. destruct (String.eqb (fst b) x) eqn:E1; destruct (String.eqb f x) eqn:E2; destruct sp; rewrite ?app_nil_r; try reflexivity;
    apply String.eqb_eq in E1, E2; congruence.
Qed.
Lemma rules_other x sp s : head_ok s -> ~ In (sh_name s) (map fst (sh_blocks s)) -> x <> sh_name s -> ~ In x (map fst (sh_blocks s)) -> rules_in x (shape_cmds sp s) = [].
Proof.
  intros (Q & _) Nn Nx Nb. unfold shape_cmds. rewrite rules_in_app, rules_quiet by exact Q. cbn [app]. induction (sh_blocks s) as [|b bs IH]; [reflexivity|]. cbn [flat_map].
  cbn [map] in Nn, Nb. rewrite rules_in_app, rules_block by (intros E; apply Nn; left; congruence). rewrite IH; [|intros X; apply Nn; right; exact X|intros X; apply Nb; right; exact X].
  destruct (String.eqb (fst b) x) eqn:E1; [apply String.eqb_eq in E1; exfalso; apply Nb; left; exact E1|]. destruct (String.eqb (sh_name s) x) eqn:E2; [apply String.eqb_eq in E2; congruence|]. reflexivity.
Qed.
Lemma rules_of_filter sp s : head_ok s -> ~ In (sh_name s) (map fst (sh_blocks s)) -> rules_in (sh_name s) (shape_cmds sp s) = map (fun b => jump_rule (fst b)) (sh_blocks s).
Proof.
  intros (Q & _) Nn. unfold shape_cmds. rewrite rules_in_app, rules_quiet by exact Q. cbn [app]. induction (sh_blocks s) as [|b bs IH]; [reflexivity|]. cbn [flat_map map].
  cbn [map] in Nn. rewrite rules_in_app, rules_block by (intros E; apply Nn; left; congruence). rewrite IH by (intros X; apply Nn; right; exact X). rewrite String.eqb_refl.
  destruct (String.eqb (fst b) (sh_name s)) eqn:E1; [apply String.eqb_eq in E1; exfalso; apply Nn; left; exact E1|]. reflexivity.
Qed.
Lemma rules_of_chain sp s b : head_ok s -> ~ In (sh_name s) (map fst (sh_blocks s)) -> NoDup (map fst (sh_blocks s)) -> In b (sh_blocks s) -> rules_in (fst b) (shape_cmds sp s) = snd b.
Proof.
  intros (Q & _) Nn D I. unfold shape_cmds. rewrite rules_in_app, rules_quiet by exact Q. cbn [app].
  assert (Z : forall bs, ~ In (sh_name s) (map fst bs) -> ~ In (fst b) (map fst bs) -> sh_name s <> fst b -> rules_in (fst b) (flat_map (block_cmds sp (sh_name s)) bs) = []).
  { induction bs as [|x bs IH]; intros Hn Hb Hs; [reflexivity|]. cbn [flat_map map] in *. rewrite rules_in_app, rules_block by (intros E; apply Hn; left; congruence).
    rewrite IH; [|intros X; apply Hn; right; exact X|intros X; apply Hb; right; exact X|exact Hs].
    destruct (String.eqb (fst x) (fst b)) eqn:E1; [apply String.eqb_eq in E1; exfalso; apply Hb; left; exact E1|]. destruct (String.eqb (sh_name s) (fst b)) eqn:E2; [apply String.eqb_eq in E2; congruence|]. reflexivity. }
  assert (Hs : sh_name s <> fst b) by (intros E; apply Nn; rewrite E; apply in_map, I).
  induction (sh_blocks s) as [|x bs IH]; [destruct I|]. cbn [flat_map map] in *. inversion D as [|? ? D1 D2]; subst. rewrite rules_in_app, rules_block by (intros E; apply Nn; left; congruence).
  destruct I as [->|I].
  - rewrite String.eqb_refl, Z; [apply app_nil_r|intros X; apply Nn; right; exact X|exact D1|exact Hs].
  - destruct (String.eqb (fst x) (fst b)) eqn:E1; [apply String.eqb_eq in E1; exfalso; apply D1; rewrite E1; apply in_map, I|].
    destruct (String.eqb (sh_name s) (fst b)) eqn:E2; [apply String.eqb_eq in E2; congruence|]. cbn [app]. apply IH; [intros X; apply Nn; right; exact X|exact D2|exact I].
Qed.

(** ** New chains *)

Definition new_chains (cmds : list command) : list string := flat_map (fun x => match x with NewChain c => [c] | _ => [] end) cmds.
Lemma loads_new : forall cmds chains, loads chains cmds -> NoDup (new_chains cmds) /\ forall c, In c (new_chains cmds) -> ~ In c chains.
Proof.
  unfold new_chains. induction cmds as [|x cmds IH]; intros chains H; [split; [constructor|intros c []]|]. destruct x as [|c|c a|c r]; cbn [loads flat_map app] in *.
  - apply IH, H.
  - destruct H as (N & H). destruct (IH _ H) as (D & F). split.
    + constructor; [|exact D]. intros I. apply (F c I). left. reflexivity.
    + intros y [<-|I] Y; [apply N; right; apply in_or_app; right; exact Y|]. apply (F y I). right. exact Y.
  - apply IH, H.
  - apply IH, H.
Qed.
Lemma new_app a b : new_chains (a ++ b) = new_chains a ++ new_chains b.
Proof. apply flat_map_app. Qed.
Definition owned (s : shape) : list string := (if is_builtin (sh_name s) then [] else [sh_name s]) ++ map fst (sh_blocks s).
Lemma new_repeat k l : new_chains (repeat Skip k ++ l) = new_chains l.
Proof. induction k; [reflexivity|assumption]. Qed.
Lemma new_blocks sp f bs : new_chains (flat_map (block_cmds sp f) bs) = map fst bs.
Proof.
  induction bs as [|b bs IH]; [reflexivity|]. cbn [flat_map map]. unfold new_chains in *. rewrite flat_map_app, IH.
  assert (Z : forall rs, flat_map (fun x => match x with NewChain c => [c] | _ => [] end) (map (Rule (fst b)) rs) = []) by (induction rs; [reflexivity|assumption]).
  unfold block_cmds. cbn [flat_map]. destruct sp; [rewrite flat_map_app, Z; reflexivity|cbn [flat_map]; rewrite Z; reflexivity].
Qed.
Lemma new_shape sp s : head_ok s -> new_chains (shape_cmds sp s) = owned s.
Proof.
  intros (_ & k & H). unfold shape_cmds, owned. unfold new_chains. rewrite flat_map_app. fold (new_chains (sh_head s)). fold (new_chains (flat_map (block_cmds sp (sh_name s)) (sh_blocks s))).
  rewrite new_blocks. f_equal. destruct (is_builtin (sh_name s)).
  - destruct H as [->|(a & ->)]; [rewrite <- (app_nil_r (repeat Skip k)), new_repeat; reflexivity|rewrite new_repeat; reflexivity].
  - rewrite H, new_repeat. reflexivity.
Qed.
Lemma new_shapes sp ss : Forall head_ok ss -> new_chains (flat_map (shape_cmds sp) ss) = flat_map owned ss.
Proof. induction 1 as [|s ss H F IH]; [reflexivity|]. cbn [flat_map]. unfold new_chains in *. rewrite flat_map_app, IH. f_equal. apply new_shape, H. Qed.

(** ** Decisions *)

Lemma NoDup_app_r2 {A} (a b : list A) : NoDup (a ++ b) -> NoDup b.
Proof. induction a as [|x a IH]; [auto|]. cbn [app]. intros D. inversion D; subst. auto. Qed.
Lemma NoDup_app_l3 {A} (a b : list A) : NoDup (a ++ b) -> NoDup a.
Proof. induction a as [|x a IH]; [constructor|]. cbn [app]. intros D. inversion D as [|? ? D1 D2]; subst. constructor; [intros I; apply D1, in_or_app; auto|auto]. Qed.
Lemma NoDup_app_l2 {A} (a b : list A) x : NoDup (a ++ b) -> In x a -> In x b -> False.
Proof. induction a as [|y a IH]; [intros _ []|]. cbn [app]. intros D. inversion D as [|? ? D1 D2]; subst. intros [<-|I] J; [apply D1, in_or_app; auto|eauto]. Qed.
Lemma nodup_apart {A B} (f : A -> list B) l1 s l2 x : NoDup (flat_map f (l1 ++ s :: l2)) -> In x (f s) -> forall s', In s' (l1 ++ l2) -> ~ In x (f s').
Proof.
  rewrite flat_map_app. cbn [flat_map]. intros D I s' J K. apply in_app_or in J. destruct J as [J|J].
  - apply (NoDup_app_l2 _ _ x D); [apply in_flat_map; exists s'; auto|apply in_or_app; left; exact I].
  - assert (D2 : NoDup (f s ++ flat_map f l2)) by (eapply NoDup_app_r2, D). apply (NoDup_app_l2 _ _ x D2); [exact I|apply in_flat_map; exists s'; auto].
Qed.
Lemma first_says_map {A B} (f : A -> B) (M : B -> string -> Prop) l o : first_says M (map f l) o <-> first_says (fun a o => M (f a) o) l o.
Proof.
  induction l as [|a l IH]; [split; intros X; apply first_says_nil in X; destruct X|]. cbn [map]. rewrite !first_says_cons, IH. reflexivity.
Qed.
Lemma first_says_iff {A} (M N : A -> string -> Prop) l o : (forall a x, In a l -> M a x <-> N a x) -> first_says M l o <-> first_says N l o.
Proof.
  induction l as [|a l IH]; intros H; [split; intros X; apply first_says_nil in X; destruct X|]. rewrite !first_says_cons, IH by (intros b x I; apply H; right; exact I).
  rewrite (H a o) by (left; reflexivity). split; (intros [X|(X & Y)]; [left; exact X|right; split; [exact X|intros b Z; apply Y, H; [left; reflexivity|exact Z]]]).
Qed.
Lemma log_verdict : ~ In "LOG" verdicts.
Proof. intros I. apply str_in_spec in I. discriminate I. Qed.
Lemma chain_of_get c n : plain_arg (ic_filter c) -> String.get 1 (chain_of c n) = Some "_"%char.
Proof. intros (N & _). unfold chain_of. destruct (ic_filter c) as [|a f]; [congruence|]. reflexivity. Qed.
Lemma chain_no_verdict x : String.get 1 x = Some "_"%char -> ~ In x ("LOG" :: verdicts).
Proof. intros E I. cbn in I. repeat destruct I as [<-|I]; try discriminate E. destruct I. Qed.
Lemma chain_no_builtin x : String.get 1 x = Some "_"%char -> ~ In x builtin_chains.
Proof. intros E I. cbn in I. repeat destruct I as [<-|I]; try discriminate E. destruct I. Qed.

Lemma leaf_gives d cmds chain rs p o : rules_in chain cmds = rs -> (forall r x, In r rs -> r_target r = Some x -> x = "LOG" \/ In x verdicts) ->
  chain_gives (S d) cmds chain p o <-> first_says (rule_gives p) rs o.
Proof.
  intros E V. cbn [chain_gives]. rewrite E. apply first_says_iff. intros r x I. unfold rule_gives. split.
  - intros (M & t & Et & [(Iv & ->)|(Nv & _)]); [split; [exact M|]; exists t; auto|]. exfalso. destruct (V r t I Et) as [->|Iv]; apply Nv; [left; reflexivity|right; exact Iv].
  - intros (M & t & Et & Iv & ->). split; [exact M|]. exists t. split; [exact Et|]. left. auto.
Qed.
Lemma table_shape_decides sp c ss1 s ss2 pre post ts p : let cmds := pre ++ flat_map (shape_cmds sp) (ss1 ++ s :: ss2) ++ post in
  Forall quiet pre -> Forall quiet post -> Forall head_ok (ss1 ++ s :: ss2) -> NoDup (map sh_name (ss1 ++ s :: ss2)) ->
  loads builtin_chains cmds -> Forall (block_ok c) (sh_blocks s) -> plain_arg (ic_filter c) -> blocks_say c ts (sh_blocks s) -> ipt_traffic c p ->
  forall o, table_decides cmds (sh_name s) p o <-> first_says (fun t o => decided t p o) ts o.
Proof.
  intros cmds Qp Qq Ho Dn L Bk Pf Bs Tp o.
  destruct (loads_new _ _ L) as (D & F). unfold cmds in D, F.
  assert (Nw : new_chains (pre ++ flat_map (shape_cmds sp) (ss1 ++ s :: ss2) ++ post) = new_chains pre ++ flat_map owned (ss1 ++ s :: ss2) ++ new_chains post).
  { rewrite !new_app, (new_shapes sp _ Ho). reflexivity. }
  rewrite Nw in D, F. assert (D' : NoDup (flat_map owned (ss1 ++ s :: ss2))) by (eapply NoDup_app_l3, NoDup_app_r2, D).
  assert (F' : forall s' y, In s' (ss1 ++ s :: ss2) -> In y (owned s') -> ~ In y builtin_chains).
  { intros s' y Is Iy. apply F. apply in_or_app. right. apply in_or_app. left. apply in_flat_map. exists s'. auto. }
  assert (In_s : In s (ss1 ++ s :: ss2)) by (apply in_or_app; right; left; reflexivity).
  (* no chain has the name of a filter *)
  assert (Own : forall s' b, In b (sh_blocks s') -> In (fst b) (owned s')) by (intros s' b I; unfold owned; apply in_or_app; right; apply in_map, I).
  assert (Ownn : forall s', is_builtin (sh_name s') = false -> In (sh_name s') (owned s')) by (intros s' E; unfold owned; rewrite E; left; reflexivity).
  assert (Apart : forall s1' s2', In s1' (ss1 ++ s :: ss2) -> In s2' (ss1 ++ s :: ss2) -> ~ In (sh_name s1') (map fst (sh_blocks s2'))).
  { intros a b Ia Ib I. assert (Ob : In (sh_name a) (owned b)) by (unfold owned; apply in_or_app; right; exact I).
    destruct (is_builtin (sh_name a)) eqn:Eb; [apply (F' b (sh_name a) Ib Ob), str_in_spec, Eb|].
    apply in_split in Ia. destruct Ia as (l1 & l2 & El). rewrite El in D', Ib.
    apply in_app_or in Ib. destruct Ib as [Ib|[<-|Ib]].
    - apply (nodup_apart owned l1 a l2 (sh_name a) D' (Ownn a Eb) b); [apply in_or_app; auto|exact Ob].
    - rewrite flat_map_app in D'. cbn [flat_map] in D'. apply NoDup_app_r2 in D'. apply NoDup_app_l3 in D'. unfold owned in D'. rewrite Eb in D'. cbn [app] in D'. inversion D' as [|? ? X _]; subst. exact (X I).
    - apply (nodup_apart owned l1 a l2 (sh_name a) D' (Ownn a Eb) b); [apply in_or_app; auto|exact Ob]. }
  assert (Ns : forall s', In s' (ss1 ++ ss2) -> sh_name s' <> sh_name s).
  { intros s' I E. rewrite map_app in Dn. cbn [map] in Dn. apply NoDup_remove_2 in Dn. apply Dn. rewrite <- map_app, <- E. apply in_map, I. }
  assert (Sub : forall s', In s' (ss1 ++ ss2) -> In s' (ss1 ++ s :: ss2)) by (intros s' I; apply in_app_or in I; apply in_or_app; destruct I; [left|right; right]; assumption).
  assert (Ho' : forall s', In s' (ss1 ++ s :: ss2) -> head_ok s') by (apply Forall_forall, Ho).
  assert (Rest : forall x, (forall s', In s' (ss1 ++ ss2) -> rules_in x (shape_cmds sp s') = []) -> rules_in x cmds = rules_in x (shape_cmds sp s)).
  { intros x H. unfold cmds. rewrite !rules_in_app, (rules_quiet x pre Qp), (rules_quiet x post Qq), app_nil_r. cbn [app]. rewrite flat_map_app, rules_in_app. cbn [flat_map]. rewrite rules_in_app.
    assert (Z : forall l, (forall s', In s' l -> rules_in x (shape_cmds sp s') = []) -> rules_in x (flat_map (shape_cmds sp) l) = []).
    { induction l as [|y l IH]; intros Hl; [reflexivity|]. cbn [flat_map]. rewrite rules_in_app, IH by (intros z Iz; apply Hl; right; exact Iz). rewrite Hl by (left; reflexivity). reflexivity. }
    rewrite (Z ss1) by (intros z Iz; apply H, in_or_app; auto). rewrite (Z ss2) by (intros z Iz; apply H, in_or_app; auto). rewrite app_nil_r. reflexivity. }
  assert (R1 : rules_in (sh_name s) cmds = map (fun b => jump_rule (fst b)) (sh_blocks s)).
  { rewrite Rest; [apply rules_of_filter; [apply Ho', In_s|apply Apart; exact In_s]|]. intros s' I. apply rules_other; [apply Ho', Sub, I|apply Apart; apply Sub, I|intros E; apply (Ns s' I); congruence|apply Apart; [exact In_s|apply Sub, I]]. }
  assert (Dm : NoDup (map fst (sh_blocks s))).
  { rewrite flat_map_app in D'. cbn [flat_map] in D'. apply NoDup_app_r2 in D'. apply NoDup_app_l3 in D'. unfold owned in D'. eapply NoDup_app_r2, D'. }
  assert (R2 : forall b, In b (sh_blocks s) -> rules_in (fst b) cmds = snd b).
  { intros b I. rewrite Rest; [apply rules_of_chain; [apply Ho', In_s|apply Apart; exact In_s|exact Dm|exact I]|].
    intros s' J. apply rules_other; [apply Ho', Sub, J|apply Apart; apply Sub, J|intros E; apply (Apart s' s (Sub s' J) In_s); rewrite <- E; apply in_map, I|].
    intros X. apply (nodup_apart owned ss1 s ss2 (fst b) D' (Own s b I) s' J). unfold owned. apply in_or_app. right. exact X. }
  rewrite <- (Bs p Tp o). unfold table_decides. cbn [chain_gives]. rewrite R1, first_says_map.
  assert (Len : forall b, In b (sh_blocks s) -> exists d, List.length cmds = S d).
  { intros b I. destruct cmds eqn:E; [|eexists; reflexivity]. exfalso. specialize (R2 b I). unfold rules_in in R1. cbn [flat_map] in R1. symmetry in R1. apply map_eq_nil in R1. rewrite R1 in I. destruct I. }
  rewrite (first_says_iff _ (fun b x => first_says (rule_gives p) (snd b) x /\ x <> "RETURN")).
  - split; [intros (X & _); exact X|]. intros X. split; [exact X|]. destruct X as (b & y & a & _ & (_ & N) & _). exact N.
  - intros b x I. destruct (Len b I) as (d & ->). pose proof (leaf_gives d cmds (fst b) (snd b) p x (R2 b I) (proj2 (proj1 (Forall_forall _ _) Bk b I))) as LG.
    cbn [r_target jump_rule r_conditions]. destruct (proj1 (Forall_forall _ _) Bk b I) as ((n & En) & _).
    assert (Nv : ~ In (fst b) ("LOG" :: verdicts)) by (apply chain_no_verdict; rewrite En; apply chain_of_get, Pf).
    split.
    + intros (_ & t & E & [(Iv & _)|(_ & X & Y)]); injection E as <-; [exfalso; apply Nv; right; exact Iv|split; [apply LG, X|exact Y]].
    + intros (X & Y). split; [constructor|]. exists (fst b). split; [reflexivity|]. right. split; [exact Nv|]. split; [apply LG, X|exact Y].
Qed.

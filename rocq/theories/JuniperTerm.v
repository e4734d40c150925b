(** A Juniper term as a whole: from clause, then clause, and the term they make. *)
From Coq Require Import Lia ZifyBool ZifyNat Permutation.
From Verif Require Import SpecJuniper BaseFacts PyStrFacts TextProofs CiscoProofs GenProofs GenProofs2 CiscoProofs2 CiscoTerm IPFacts
  ExcludeProofs PolicyProofs CiscoAcl JuniperText JuniperProofs.
Local Open Scope string_scope.
Local Open Scope list_scope.
Local Open Scope Z_scope.

(** ** Prefix lists *)

Lemma prefix_list_section v p key (P : string -> Prop) l : plain_word key -> plain_words l ->
  (forall body, holds v p (Block [key] body) = exists n, In (Leaf [n]) body /\ P n) ->
  section v p (prefix_list_block key l []) (any_or l P).
Proof.
  intros K W E. unfold prefix_list_block. destruct l as [|x l].
  - apply section_true. left. reflexivity.
  - cbn [some orb]. set (m := x :: l) in *. assert (N : m <> []) by discriminate. clearbody m.
    exists [Block [key] (map (fun n => Leaf [n]) m)]. split; [|split].
    + cbn [map]. rewrite (app_nil_l ["}"]). apply renders_block.
      * change ([key] ++ ["{"]) with (key :: ["{"]). change (" {")%string with (" " ++ "{")%string. apply chunk_key; [exact K|]. apply chunk_lit; reflexivity.
      * replace (map (fun p0 => (p0 ++ ";")%string) m) with (flat_map (fun p0 => [(p0 ++ ";")%string]) m).
        -- apply renders_map. intros n I. apply renders_line. apply (chunk_word_special n ";"); [apply W, I|reflexivity].
        -- clear. induction m as [|a m IH]; [reflexivity|]. cbn [flat_map map app]. rewrite IH. reflexivity.
    + cbn [forallb stmt_ok]. rewrite (plain_ok _ K), !andb_true_r. cbn [andb]. apply forallb_forall. intros s I. apply in_map_iff in I.
      destruct I as (n & <- & I). cbn [stmt_ok forallb]. rewrite (plain_ok _ (W n I)). reflexivity.
    + unfold any_or. split.
      * intros H. right. specialize (H _ (or_introl eq_refl)). rewrite E in H. destruct H as (n & I & Pn). apply in_map_iff in I.
        destruct I as (n' & X & I). injection X as ->. exists n. auto.
      * intros [X|(n & I & Pn)] s [<-|[]]; [congruence|]. rewrite E. exists n. split; [apply in_map_iff; exists n; auto|exact Pn].
Qed.

(** ** Options *)

Definition rst_key : string := append "tcp-flags " (String dquote (append "rst" (String dquote ""))).
Definition ack_key : string := append "tcp-flags " (String dquote (append "(ack|rst)" (String dquote ""))).
Definition opt_stmt (k : string) : stmt :=
  if String.eqb k rst_key then Leaf ["tcp-flags"; String dquote (append "rst" (String dquote ""))]
  else if String.eqb k ack_key then Leaf ["tcp-flags"; String dquote (append "(ack|rst)" (String dquote ""))] else Leaf [k].
Definition opt_key (k : string) : Prop := k = rst_key \/ k = ack_key \/ plain_word k.
Lemma opt_chunk k : opt_key k -> chunk (k ++ ";")%string (stmt_toks (opt_stmt k)) /\ stmt_ok (opt_stmt k) = true.
Proof.
  intros K. unfold opt_stmt. destruct (String.eqb k rst_key) eqn:E.
  - apply String.eqb_eq in E. subst k. split; [apply chunk_lit; vm_compute; reflexivity|reflexivity].
  - destruct (String.eqb k ack_key) eqn:E'.
    { apply String.eqb_eq in E'. subst k. split; [apply chunk_lit; vm_compute; reflexivity|reflexivity]. }
    destruct K as [K|[K|K]]; [subst k; discriminate E|subst k; discriminate E'|]. split; [apply (chunk_word_special k ";"); [exact K|reflexivity]|].
    cbn [stmt_ok forallb]. rewrite (plain_ok _ K). reflexivity.
Qed.
Lemma opt_renders ks : (forall k, In k ks -> opt_key k) -> renders (map (fun k => (k ++ ";")%string) ks) (map opt_stmt ks) /\
  forallb stmt_ok (map opt_stmt ks) = true.
Proof.
  induction ks as [|k ks IH]; intros H; [split; [apply renders_nil|reflexivity]|].
  destruct (opt_chunk k (H k (or_introl eq_refl))) as (C & O). destruct IH as (R & O2); [intros x I; apply H; right; exact I|].
  cbn [map forallb]. rewrite O, O2. split; [|reflexivity]. change (opt_stmt k :: map opt_stmt ks) with ([opt_stmt k] ++ map opt_stmt ks).
  change ((k ++ ";")%string :: map (fun k0 => (k0 ++ ";")%string) ks) with ([(k ++ ";")%string] ++ map (fun k0 => (k0 ++ ";")%string) ks).
  apply renders_app; [apply renders_line, C|exact R].
Qed.
Definition juniper_flags (p : packet) : Prop :=
  (p_option p "tcp-established" <-> p_option p "established") /\
  (p_option p "tcp-initial" <-> p_option p "initial") /\ p_option p "sample".
Lemma holds_opt v p k : juniper_flags p -> plain_word k -> holds v p (opt_stmt k) <-> p_option p k.
Proof.
  intros (F1 & F2 & _) (_ & P). unfold opt_stmt. destruct (String.eqb k rst_key) eqn:E; [apply String.eqb_eq in E; subst k; discriminate P|].
  destruct (String.eqb k ack_key) eqn:E'; [apply String.eqb_eq in E'; subst k; discriminate P|].
  cbn [holds]. destruct (String.eqb k "tcp-established") eqn:E1; [apply String.eqb_eq in E1; subst k; symmetry; exact F1|].
  destruct (String.eqb k "tcp-initial") eqn:E2; [apply String.eqb_eq in E2; subst k; symmetry; exact F2|]. reflexivity.
Qed.
Definition semi (k : string) : string := append k ";".
Lemma semi_inj a : forall b, semi a = semi b -> a = b.
Proof.
  induction a as [|c a IH]; intros [|d b] E; [reflexivity| | |].
  - injection E as _ E. destruct b; discriminate E.
  - injection E as _ E. destruct a; discriminate E.
  - injection E as -> E. f_equal. apply IH, E.
Qed.
Lemma semi_in k ks : str_in (semi k) (map semi ks) = true -> In k ks.
Proof. intros H. apply str_in_iff in H. apply in_map_iff in H. destruct H as (x & E & I). apply semi_inj in E. subst x. exact I. Qed.
Section Options.
  Variables (c : juniper_cfg) (ps : list pval) (t : term) (p : packet) (v : ver).
  Hypothesis T : filter_family (jc_type c).
  Hypothesis F : juniper_flags p.
  Hypothesis Tcp : t_protocol t = ["tcp"] -> only_tcp ps = true.
  Hypothesis HasTcp : In "tcp" (t_protocol t) -> existsb (pval_is "tcp") ps = true.
  Definition all_hold (ks : list string) : Prop := forall k, In k ks -> holds v p (opt_stmt k).
  Definition step_ok (ks : list string) (extra : list string) (o : string) (r : list string * list string) : Prop :=
    exists ks' n, snd r = map semi (ks ++ ks') /\ (forall k, In k ks' -> opt_key k) /\ fst r = extra ++ repeat "sample" n /\
      (all_hold (ks ++ ks') <-> all_hold ks /\ p_option p o).
  Lemma step_add ks extra o k : opt_key k -> (holds v p (opt_stmt k) <-> p_option p o) -> step_ok ks extra o (extra, map semi ks ++ [semi k]).
  Proof.
    intros K H. exists [k], 0%nat. cbn [fst snd repeat]. rewrite map_app, app_nil_r. split; [reflexivity|]. split; [intros x [<-|[]]; exact K|].
    split; [reflexivity|]. unfold all_hold. rewrite <- H. split.
    - intros A. split; [intros x I; apply A, in_or_app; left; exact I|apply A, in_or_app; right; left; reflexivity].
    - intros (A & B) x I. apply in_app_or in I. destruct I as [I|[<-|[]]]; auto.
  Qed.
  Lemma step_same ks extra o n : (all_hold ks -> p_option p o) -> step_ok ks extra o (extra ++ repeat "sample" n, map semi ks).
  Proof.
    intros H. exists [], n. cbn [fst snd]. rewrite app_nil_r. split; [reflexivity|]. split; [intros x []|]. split; [reflexivity|]. tauto.
  Qed.
  Lemma est_holds : holds v p (opt_stmt "tcp-established") <-> p_option p "established".
  Proof. rewrite holds_opt; [apply F|exact F|apply plain_lit; reflexivity]. Qed.
  Lemma option_step ks extra o r : juniper_option_ok t o -> juniper_option c ps (extra, map semi ks) o = Ok r -> step_ok ks extra o r.
  Proof.
    set (ek := kw c "tcp-est"). assert (Eh : opt_key ek /\ (holds v p (opt_stmt ek) <-> p_option p "established")).
    { assert (X : ek = "tcp-established" \/ ek = ack_key) by (unfold ek, kw; destruct T as [->|[-> | ->]]; [left|left|right]; reflexivity).
      destruct X as [-> | ->]; [split; [right; right; apply plain_lit; reflexivity|exact est_holds]|]. split; [right; left; reflexivity|].
      change (opt_stmt ack_key) with (Leaf ["tcp-flags"; String dquote (append "(ack|rst)" (String dquote ""))]).
      change (holds v p (Leaf ["tcp-flags"; String dquote (append "(ack|rst)" (String dquote ""))])) with
        (([String dquote (append "(ack|rst)" (String dquote ""))] = [String dquote (append "rst" (String dquote ""))] /\ p_option p "rst") \/
         ([String dquote (append "(ack|rst)" (String dquote ""))] = [String dquote (append "(ack|rst)" (String dquote ""))] /\ p_option p "established")).
      split; [intros [(X & _)|(_ & X)]; [discriminate X|exact X]|intros X; right; split; [reflexivity|exact X]]. }
    destruct Eh as (Kh & Eh).
    assert (Plain : forall k, plain_word k -> opt_key k) by (intros k; right; right; assumption).
    intros K H. unfold juniper_option in H. cbv zeta in H. fold ek in H. change (append ek ";") with (semi ek) in H.
    destruct K as [->|[(I & Pt)|[->|[(-> & It)|[->|(Po & N)]]]]].
    - change (starts_with "sample" "sample") with true in H. cbv iota in H. apply ok_inj in H. subst r.
      apply (step_same ks extra "sample" 1). intros _. apply F.
    - destruct I as [<-|[<-|[]]].
      + change (starts_with "sample" "established") with false in H. change (starts_with "established" "established") with true in H. cbv iota in H.
        rewrite (Tcp Pt) in H. cbn [andb] in H. apply ok_inj in H. subst r. change "tcp-established;" with (semi "tcp-established").
        destruct (str_in (semi "tcp-established") (map semi ks)) eqn:E; cbn [negb].
        * pose proof (step_same ks extra "established" 0) as S. cbn [repeat] in S. rewrite app_nil_r in S. apply S.
          intros A. apply (proj1 est_holds), A, semi_in, E.
        * apply step_add; [exact Kh|exact Eh].
      + change (starts_with "sample" "tcp-established") with false in H. change (starts_with "established" "tcp-established") with false in H.
        change (starts_with "tcp-established" "tcp-established") with true in H. cbv iota in H. rewrite (Tcp Pt) in H. apply ok_inj in H. subst r.
        destruct (str_in (semi ek) (map semi ks)) eqn:E.
        * pose proof (step_same ks extra "tcp-established" 0) as S. cbn [repeat] in S. rewrite app_nil_r in S. apply S.
          intros A. apply (proj2 (proj1 F)), (proj1 Eh), A, semi_in, E.
        * apply step_add; [exact Kh|]. rewrite Eh. symmetry. apply F.
    - change (starts_with "sample" "rst") with false in H. change (starts_with "established" "rst") with false in H.
      change (starts_with "tcp-established" "rst") with false in H. change (starts_with "rst" "rst") with true in H. cbv iota in H. apply ok_inj in H. subst r.
      change (append "tcp-flags " (String dquote (append "rst" (String dquote ";")))) with (semi rst_key). apply step_add; [left; reflexivity|].
      change (opt_stmt rst_key) with (Leaf ["tcp-flags"; String dquote (append "rst" (String dquote ""))]).
      change (holds v p (Leaf ["tcp-flags"; String dquote (append "rst" (String dquote ""))])) with
        (([String dquote (append "rst" (String dquote ""))] = [String dquote (append "rst" (String dquote ""))] /\ p_option p "rst") \/
         ([String dquote (append "rst" (String dquote ""))] = [String dquote (append "(ack|rst)" (String dquote ""))] /\ p_option p "established")).
      split; [intros [(_ & X)|(X & _)]; [exact X|discriminate X]|intros X; left; split; [reflexivity|exact X]].
    - change (starts_with "sample" "initial") with false in H. change (starts_with "established" "initial") with false in H.
      change (starts_with "tcp-established" "initial") with false in H. change (starts_with "rst" "initial") with false in H.
      change (starts_with "initial" "initial") with true in H. rewrite (HasTcp It) in H. cbv iota beta in H. cbn [andb] in H. apply ok_inj in H. subst r.
      change "tcp-initial;" with (semi "tcp-initial"). apply step_add; [apply Plain, plain_lit; reflexivity|].
      rewrite holds_opt; [apply F|exact F|apply plain_lit; reflexivity].
    - change (starts_with "sample" "first-fragment") with false in H. change (starts_with "established" "first-fragment") with false in H.
      change (starts_with "tcp-established" "first-fragment") with false in H. change (starts_with "rst" "first-fragment") with false in H.
      change (starts_with "initial" "first-fragment") with false in H. change (starts_with "first-fragment" "first-fragment") with true in H.
      cbn [andb] in H. apply ok_inj in H. subst r. change "first-fragment;" with (semi "first-fragment").
      apply step_add; [apply Plain, plain_lit; reflexivity|]. apply holds_opt; [exact F|apply plain_lit; reflexivity].
    - assert (M : forall r, In r rewritten_options -> starts_with r o = false) by exact N. unfold rewritten_options in M.
      rewrite (M "sample"), (M "established"), (M "tcp-established"), (M "rst"), (M "initial"), (M "first-fragment") in H by (cbn [In]; tauto).
      cbn [andb] in H. apply ok_inj in H. subst r. apply step_add; [apply Plain, Po|]. apply holds_opt; assumption.
  Qed.
  Lemma options_spec opts : (forall o, In o opts -> juniper_option_ok t o) -> forall ks extra extra' from',
    juniper_options c ps (extra, map semi ks) opts = Ok (extra', from') ->
    exists ks' n, from' = map semi (ks ++ ks') /\ (forall k, In k ks' -> opt_key k) /\ extra' = extra ++ repeat "sample" n /\
      (all_hold (ks ++ ks') <-> all_hold ks /\ forall o, In o opts -> p_option p o).
  Proof.
    induction opts as [|o opts IH]; intros K ks extra extra' from' H.
    - cbn [juniper_options] in H. apply ok_inj in H. injection H as <- <-. exists [], 0%nat. cbn [repeat]. rewrite !app_nil_r.
      split; [reflexivity|]. split; [intros k []|]. split; [reflexivity|]. split; [intros A; split; [exact A|intros o []]|intros (A & _); exact A].
    - cbn [juniper_options] in H. destruct (juniper_option c ps (extra, map semi ks) o) as [(ex1, fr1)|e] eqn:E; [|discriminate H]. cbn [bind] in H.
      destruct (option_step ks extra o _ (K o (or_introl eq_refl)) E) as (k1 & n1 & E1 & O1 & E2 & S1). cbn [fst snd] in E1, E2. subst ex1 fr1.
      destruct (IH (fun o' I => K o' (or_intror I)) _ _ _ _ H) as (k2 & n2 & -> & O2 & -> & S2).
      exists (k1 ++ k2), (n1 + n2)%nat. rewrite app_assoc. split; [reflexivity|]. split; [intros k I; apply in_app_or in I; destruct I; auto|].
      split; [rewrite repeat_app, app_assoc; reflexivity|]. rewrite S2, S1. cbn [In]. split.
      + intros ((A & B) & C). split; [exact A|]. intros x [<-|I]; auto.
      + intros (A & B). split; [split; [exact A|apply B; left; reflexivity]|]. intros x I. apply B. right. exact I.
  Qed.
  Lemma options_section opts extra from : (forall o, In o opts -> juniper_option_ok t o) ->
    juniper_options c ps ([], []) opts = Ok (extra, from) ->
    section v p from (forall o, In o opts -> p_option p o) /\ exists n, extra = repeat "sample" n.
  Proof.
    intros K H. destruct (options_spec opts K [] [] _ _ H) as (ks & n & -> & O & -> & S). cbn [app] in *. split; [|exists n; reflexivity].
    destruct (opt_renders ks O) as (R & Ok1). exists (map opt_stmt ks). split; [exact R|]. split; [exact Ok1|].
    split.
    - intros A. apply S. intros k I. apply A, in_map, I.
    - intros A s I. apply in_map_iff in I. destruct I as (k & <- & I). assert (N : all_hold []) by (intros x []). apply (proj2 S (conj N A)), I.
  Qed.
End Options.

(** ** Numbers, precedence, DSCP, ICMP *)

Lemma bracket_section v p k l (cond : Prop) : plain_word k -> plain_words l -> l <> [] ->
  (keyword v p k ("[" :: l ++ ["]"]) <-> cond) -> section v p [append k (append " [ " (append (join " " l) " ];"))] cond.
Proof.
  intros K P N E. eapply section_iff; [|apply (section_leaf v p _ (k :: "[" :: l ++ ["]"]))].
  - rewrite holds_keyword by discriminate. exact E.
  - change (" [ " ++ join " " l ++ " ];")%string with (" " ++ ("[ " ++ join " " l ++ " ];"))%string. apply chunk_key; [exact K|]. apply chunk_brackets; assumption.
  - cbn [forallb]. rewrite (plain_ok _ K), forallb_app, (words_ok _ P). reflexivity.
Qed.
Lemma bracket_values l : values ("[" :: l ++ ["]"]) = l.
Proof. cbn [values String.eqb Ascii.eqb Bool.eqb]. apply removelast_last. Qed.
Lemma dscp_section v p k l : plain_word k -> (forall ws, keyword v p k ws = one_of (eq (p_dscp p)) ws) -> plain_words l ->
  section v p (if some l then [append k (append " [ " (append (join " " l) " ];"))] else []) (any_or l (eq (p_dscp p))).
Proof.
  intros K E P. destruct l as [|x l]; [apply section_true; left; reflexivity|]. apply bracket_section; [exact K|exact P|discriminate|].
  rewrite E. unfold one_of. rewrite bracket_values. unfold any_or. split; [auto|]. intros [X|X]; [discriminate X|exact X].
Qed.
Lemma dscp_except_section v p k l : plain_word k -> (forall ws, keyword v p k ws = none (eq (p_dscp p)) ws) -> plain_words l ->
  section v p (if some l then [append k (append " [ " (append (join " " l) " ];"))] else []) (none_of l (eq (p_dscp p))).
Proof.
  intros K E P. destruct l as [|x l]; [apply section_true; intros a []|]. apply bracket_section; [exact K|exact P|discriminate|].
  rewrite E. unfold none. rewrite bracket_values. reflexivity.
Qed.
Lemma precedence_section v p l ls : plain_words l -> precedence_line l = Ok ls -> section v p ls (any_or l (eq (p_precedence p))).
Proof.
  intros P H. unfold precedence_line in H. destruct l as [|x l].
  - apply ok_inj in H. subst. apply section_true. left. reflexivity.
  - cbn [some] in H. set (m := x :: l) in *. destruct (mapM _ m); [|discriminate H]. cbn [bind] in H. apply ok_inj in H. subst ls.
    eapply section_iff; [|apply (eq_section v p "precedence" (p_precedence p) (sorted_set m)); [apply plain_lit; reflexivity|reflexivity|]].
    + unfold any_or. split.
      * intros [E|(y & I & E)]; right; [|exists y; split; [apply sorted_set_in, I|exact E]]. exfalso. assert (I : In x (sorted_set m)) by (apply sorted_set_in; left; reflexivity).
        rewrite E in I. destruct I.
      * intros [E|(y & I & E)]; [discriminate E|]. right. exists y. split; [apply sorted_set_in, I|exact E].
    + intros y I. apply P, sorted_set_in, I.
Qed.
Lemma icmp_code_section v p l : (forall n, In n l -> 0 <= n) -> section v p (group_line "icmp-code" (map dec l)) (any_or l (eq (p_icmp_code p))).
Proof.
  intros H. assert (P : plain_words (map dec l)) by (intros s I; apply in_map_iff in I; destruct I as (n & <- & I); apply dec_plain, H, I).
  eapply section_iff; [|apply group_section; [apply plain_lit; reflexivity|exact P]].
  change (keyword v p "icmp-code" (gw (map dec l))) with (one_of (fun w => numeral_value w = Some (p_icmp_code p)) (gw (map dec l))).
  rewrite one_of_gw by exact P. rewrite map_nil. unfold any_or. apply or_iff_compat_l. split.
  - intros (w & I & E). apply in_map_iff in I. destruct I as (n & <- & I). rewrite dec_value in E by (apply H, I). injection E as E. exists n. auto.
  - intros (n & I & E). exists (dec n). split; [apply in_map, I|]. rewrite E. apply dec_value, H, I.
Qed.
Lemma icmp_types_spec3 types protos af v r p : types <> [] -> (af = AfName "inet" /\ v = V4 \/ af = AfName "inet6" /\ v = V6 \/ af = AfName "bridge" /\ v = V4) ->
  normalize_icmp_types types protos af = Ok r ->
  exists l, r = Some l /\ l <> [] /\ (forall n, In n l -> 0 <= n) /\
    ((exists n, In n l /\ In (p_icmp_type p, n) (icmp_types_of v)) <-> any_or types (eq (p_icmp_type p))).
Proof.
  intros Nt Haf H. destruct r as [l|]; [|apply normalize_icmp_none in H; congruence]. exists l. split; [reflexivity|].
  apply normalize_icmp_ok in H. destruct H as (_ & _ & n & table & nums & Fam & Num & F2 & Pm).
  assert (T : table = icmp_types_of v).
  { destruct Haf as [(-> & ->)|[(-> & ->)|(-> & ->)]]; destruct Num as [(E & _)|[(N & [E|E])|(N & E)]]; try discriminate E;
      destruct Fam as [(_ & X & ->)|(_ & X & ->)]; try reflexivity; exfalso; lia. }
  subst table.
  assert (I1 : forall k, In k nums -> exists x, In x types /\ In (x, k) (icmp_types_of v)).
  { intros k. clear -F2. induction F2 as [|x y l1 l2 Hx F IH]; [intros []|]. intros [<-|I].
    - exists x. split; [left; reflexivity|exact Hx].
    - destruct (IH I) as (z & Z1 & Z2). exists z. split; [right; exact Z1|exact Z2]. }
  assert (I2 : forall x, In x types -> exists k, In k nums /\ In (x, k) (icmp_types_of v)).
  { intros x. clear -F2. induction F2 as [|y z l1 l2 Hx F IH]; [intros []|]. intros [<-|I].
    - exists z. split; [left; reflexivity|exact Hx].
    - destruct (IH I) as (k & Z1 & Z2). exists k. split; [right; exact Z1|exact Z2]. }
  split; [|split].
  - intros ->. apply Permutation_nil in Pm. subst nums. inversion F2. congruence.
  - intros k I. apply (Permutation_in _ Pm) in I. destruct (I1 _ I) as (x & _ & X). eapply icmp_nonneg, X.
  - unfold any_or. split.
    + intros (k & I & S). right. apply (Permutation_in _ Pm) in I. destruct (I1 _ I) as (x & X1 & X2). exists x. split; [exact X1|].
      exact (icmp_unique _ _ _ _ S X2).
    + intros [E|(x & I & E)]; [congruence|]. destruct (I2 x I) as (k & K1 & K2). exists k. split.
      * apply (Permutation_in _ (Permutation_sym Pm)), K1.
      * rewrite E. exact K2.
Qed.
Lemma icmp_types_spec types protos af v r p : types <> [] -> (af = AfName "inet" /\ v = V4 \/ af = AfName "inet6" /\ v = V6) ->
  normalize_icmp_types types protos af = Ok r ->
  exists l, r = Some l /\ l <> [] /\ (forall n, In n l -> 0 <= n) /\
    ((exists n, In n l /\ In (p_icmp_type p, n) (icmp_types_of v)) <-> any_or types (eq (p_icmp_type p))).
Proof. intros N H. apply icmp_types_spec3; [exact N|tauto]. Qed.
Lemma icmp_type_section c p types protos ls : filter_family (jc_type c) ->
  (if some types then let! r := normalize_icmp_types types protos (AfName (jc_type c)) in Ok (match r with Some l => map dec l | None => [] end) else Ok []) = Ok ls ->
  section (j_ver c) p (group_line "icmp-type" ls) (any_or types (eq (p_icmp_type p))).
Proof.
  intros T H. destruct types as [|x0 types0].
  - apply ok_inj in H. subst. apply section_true. left. reflexivity.
  - cbn [some] in H. set (types := x0 :: types0) in *. destruct (normalize_icmp_types types protos (AfName (jc_type c))) as [r|e] eqn:E; [|discriminate H].
    cbn [bind] in H. apply ok_inj in H. subst ls.
    destruct (icmp_types_spec3 types protos (AfName (jc_type c)) (j_ver c) r p) as (l & -> & Nl & N & S); [discriminate| |exact E|].
    { unfold j_ver. destruct T as [->|[-> | ->]]; [left|right; left|right; right]; split; reflexivity. }
    assert (P : plain_words (map dec l)) by (intros s I; apply in_map_iff in I; destruct I as (n & <- & I); apply dec_plain, N, I).
    eapply section_iff; [|apply group_section; [apply plain_lit; reflexivity|exact P]].
    change (keyword (j_ver c) p "icmp-type" (gw (map dec l))) with
      (one_of (fun w => exists n, numeral_value w = Some n /\ In (p_icmp_type p, n) (icmp_types_of (j_ver c))) (gw (map dec l))).
    rewrite one_of_gw by exact P. rewrite <- S, map_nil. split.
    + intros [X|(w & I & n & E1 & E2)].
      * congruence.
      * apply in_map_iff in I. destruct I as (k & <- & I). rewrite dec_value in E1 by (apply N, I). injection E1 as ->. exists n. auto.
    + intros (n & I & J). right. exists (dec n). split; [apply in_map, I|]. exists n. split; [apply dec_value, N, I|exact J].
Qed.

(** ** The from clause *)

(** The protocols of the list, as far as packets of the family can have them. *)
Definition protocols_listed (c : juniper_cfg) (t : term) (ps : list pval) : Prop :=
  exists qs, stand_for ps qs /\ (ps = [] <-> t_protocol t = []) /\
    forall q, q <> match j_ver c with V4 => "icmpv6" | V6 => "icmp" end -> In q qs <-> In q (t_protocol t).
Lemma protocol_section c p t ps : filter_family (jc_type c) -> juniper_traffic c p -> protocols_listed c t ps ->
  section (j_ver c) p (group_line (kw c "protocol") (map pval_text (replace_first "icmpv6" "icmp6" ps))) (any_or (t_protocol t) (eq (p_proto p))).
Proof.
  intros T (_ & _ & _ & _ & Np & _) (qs & F & E & M).
  pose proof (stand_replace _ _ _ _ icmpv6_stands F) as F'. set (xs := replace_first "icmpv6" "icmp6" ps) in *.
  assert (Nx : map pval_text xs = [] <-> ps = []).
  { unfold xs. destruct ps as [|x ps]; [split; reflexivity|]. cbn [replace_first]. destruct (pval_is "icmpv6" x); cbn [map]; split; discriminate. }
  eapply section_iff; [|apply group_section; [apply (kw_plain _ _ T); cbn; tauto|eapply stand_plain, F']].
  assert (K : forall ws, keyword (j_ver c) p (kw c "protocol") ws = one_of (fun w => protocol_word w p) ws)
    by (intros ws; unfold kw; destruct T as [->|[-> | ->]]; reflexivity).
  rewrite K, one_of_gw by (eapply stand_plain, F'). rewrite (stand_says _ _ p F'), Nx. unfold any_or. split.
  - intros [X|(q & I & X)]; [left; apply E, X|right]. exists q. split; [apply M; [congruence|exact I]|exact X].
  - intros [X|(q & I & X)].
    + left. apply E, X.
    + right. exists q. split; [apply M; [congruence|exact I]|exact X].
Qed.
Lemma protocol_except_section c p l : filter_family (jc_type c) -> (forall q, In q l -> In q (map fst proto_map)) ->
  section (j_ver c) p (group_line (kw c "protocol-except")
    (map pval_text (replace_first "icmpv6" "icmp6" (replace_first "hopopt" "hop-by-hop" (map PName l))))) (none_of l (eq (p_proto p))).
Proof.
  intros T H. assert (F : stand_for (map PName l) l).
  { induction l as [|q l IH]; constructor; [split; [apply H; left; reflexivity|left; reflexivity]|]. apply IH. intros r I. apply H. right. exact I. }
  pose proof (stand_replace _ _ _ _ icmpv6_stands (stand_replace _ _ _ _ hopopt_stands F)) as F'.
  set (xs := replace_first "icmpv6" "icmp6" (replace_first "hopopt" "hop-by-hop" (map PName l))) in *. clearbody xs.
  eapply section_iff; [|apply group_section; [apply (kw_plain _ _ T); cbn; tauto|eapply stand_plain, F']].
  assert (K : forall ws, keyword (j_ver c) p (kw c "protocol-except") ws = none (fun w => protocol_word w p) ws)
    by (intros ws; unfold kw; destruct T as [->|[-> | ->]]; reflexivity).
  rewrite K, none_gw by (eapply stand_plain, F'). pose proof (stand_says _ _ p F') as S. unfold none_of. split.
  - intros [E|N] q I Q.
    + rewrite map_nil in E. subst xs. inversion F'; subst. destruct I.
    + destruct (proj2 S) as (w & J & W); [exists q; auto|]. exact (N w J W).
  - intros N. right. intros w I W. destruct (proj1 S) as (q & J & Q); [exists w; auto|]. exact (N q J Q).
Qed.
Lemma ttl_section c p o : (forall n, o = Some n -> 0 < n /\ jc_type c = "inet") ->
  section (j_ver c) p (match o with
        | Some n => if negb (n =? 0) && String.eqb (jc_type c) "inet" then [append "ttl " (append (dec n) ";")] else []
        | None => [] end) (opt_eq o (p_ttl p)).
Proof.
  intros H. destruct o as [n|]; [|apply section_true; exact I]. destruct (H n eq_refl) as (L & T).
  rewrite T. replace (n =? 0) with false by lia. cbn [negb andb String.eqb Ascii.eqb Bool.eqb opt_eq].
  eapply section_iff; [|apply (section_leaf _ _ _ ["ttl"; dec n])].
  - rewrite holds_keyword by discriminate. change (keyword (j_ver c) p "ttl" [dec n]) with (one_of (fun w => numeral_value w = Some (p_ttl p)) [dec n]).
    unfold one_of. cbn [values]. rewrite (plain_not_bracket (dec n)) by (apply dec_plain; lia). split.
    + intros (w & [<-|[]] & E). rewrite dec_value in E by lia. congruence.
    + intros E. exists (dec n). split; [left; reflexivity|]. rewrite E. apply dec_value. lia.
  - change (append "ttl " (append (dec n) ";")) with (append "ttl" (append " " (append (dec n) ";"))). apply chunk_key; [apply plain_lit; reflexivity|].
    apply (chunk_word_special (dec n) ";"); [apply dec_plain; lia|reflexivity].
  - cbn [forallb]. rewrite (plain_ok (dec n)) by (apply dec_plain; lia). reflexivity.
Qed.
Lemma hops_section c p o : filter_family (jc_type c) -> plain_opt o -> (given o = true -> jc_type c = "inet6") ->
  section (j_ver c) p (if String.eqb (jc_type c) "inet6" then value_line "hop-limit" o else []) (text_range o (p_hops p)).
Proof.
  intros T P G. assert (T' : jc_type c = "inet6" \/ (jc_type c <> "inet6" /\ String.eqb (jc_type c) "inet6" = false)) by (destruct T as [->|[-> | ->]]; [right|left|right]; repeat split; discriminate).
  clear T. destruct T' as [T|(T & E)]; [rewrite T|rewrite E].
  2:{ apply section_true. destruct o as [s|]; [|exact I]. destruct s as [|ch s]; [left; reflexivity|]. destruct (T (G eq_refl)). }
  - cbn [String.eqb Ascii.eqb Bool.eqb]. apply range_section; [apply plain_lit; reflexivity|reflexivity|exact P].
Qed.

(** What the from clause asks. *)
Definition fields_match (t : term) (p : packet) : Prop :=
  either_matches (t_address t) [] (p_src p) (p_dst p) /\
  side_matches (t_source_address t) (t_source_address_exclude t) (p_src p) /\
  side_matches (t_destination_address t) (t_destination_address_exclude t) (p_dst p) /\
  any_or (t_forwarding_class t) (eq (p_class p)) /\ none_of (t_forwarding_class_except t) (eq (p_class p)) /\
  any_or (t_source_prefix t) (p_src_prefix p) /\ any_or (t_destination_prefix t) (p_dst_prefix p) /\
  opt_eq (t_ttl t) (p_ttl p) /\
  (ports_match (t_port t) (p_sport p) \/ ports_match (t_port t) (p_dport p)) /\
  ports_match (t_source_port t) (p_sport p) /\ ports_match (t_destination_port t) (p_dport p) /\
  (forall o, In o (t_option t) -> p_option p o) /\
  text_range (t_packet_length t) (p_length p) /\ text_range (t_fragment_offset t) (p_fragment p) /\
  any_or (t_icmp_type t) (eq (p_icmp_type p)) /\ any_or (t_icmp_code t) (eq (p_icmp_code p)) /\
  any_or (t_ether_type t) (eq (p_ether p)) /\ any_or (t_protocol t) (eq (p_proto p)) /\
  none_of (t_protocol_except t) (eq (p_proto p)) /\ any_or (t_traffic_type t) (eq (p_traffic p)) /\
  any_or (t_precedence t) (eq (p_precedence p)) /\ any_or (t_dscp_match t) (eq (p_dscp p)) /\
  none_of (t_dscp_except t) (eq (p_dscp p)) /\ text_range (t_hop_limit t) (p_hops p).
Lemma section_block v p lines cond : section v p lines cond ->
  exists conds, renders (["from {"] ++ lines ++ ["}"]) [Block ["from"] conds] /\ stmt_ok (Block ["from"] conds) = true /\
    ((forall s, In s conds -> holds v p s) <-> cond).
Proof.
  intros (l & R & O & S). exists l. split; [apply renders_block; [apply chunk_lit; reflexivity|exact R]|]. split; [cbn [stmt_ok forallb]; rewrite O; reflexivity|exact S].
Qed.
Lemma from_says c t ps from p r : juniper_term_ok c t -> juniper_traffic c p -> protocols_listed c t ps ->
  section (j_ver c) p from (forall o, In o (t_option t) -> p_option p o) ->
  from_lines c t ps from = Ok r ->
  match r with
  | None => ~ fields_match t p
  | Some ls => exists conds, renders ls [Block ["from"] conds] /\ stmt_ok (Block ["from"] conds) = true /\
      ((forall s, In s conds -> holds (j_ver c) p s) <-> fields_match t p)
  end.
Proof.
  intros K Tr Pl Fr H. unfold from_lines in H. pose proof (jt_type _ _ K) as T. pose proof (jt_dsmo _ _ K) as D.
  pose proof Tr as (Ts1 & Ts2 & Td1 & Td2 & _).
  assert (Es : p_src p = (j_ver c, snd (p_src p))) by (rewrite <- Ts1; apply surjective_pairing).
  assert (Ed : p_dst p = (j_ver c, snd (p_dst p))) by (rewrite <- Td1; apply surjective_pairing).
  cbv zeta in H. destruct (either_block c (t_address t)) as [a|e] eqn:Ea; [|discriminate H]. cbn [bind] in H.
  pose proof (either_block_says c p _ _ D T (jt_addr _ _ K) Ts1 Td1 Ts2 Td2 Ea) as Sa. destruct a as [a|]; [|apply ok_inj in H; subst r; intros (X & _); exact (Sa X)].
  destruct (side_block c "saddr" _ _) as [s|e] eqn:Esb; [|discriminate H]. cbn [bind] in H.
  destruct s as [s|].
  2:{ apply ok_inj in H. subst r. intros (_ & X & _). rewrite Es in X. exact (side_none _ _ _ _ _ (or_introl eq_refl) D T (jt_src _ _ K) Esb Ts2 X). }
  destruct (side_block c "daddr" _ _) as [d|e] eqn:Edb; [|discriminate H]. cbn [bind] in H.
  destruct d as [d|].
  2:{ apply ok_inj in H. subst r. intros (_ & _ & X & _). rewrite Ed in X. exact (side_none _ _ _ _ _ (or_intror (or_introl eq_refl)) D T (jt_dst _ _ K) Edb Td2 X). }
  assert (Ss : section (j_ver c) p s (side_matches (t_source_address t) (t_source_address_exclude t) (p_src p))).
  { rewrite Es. eapply (side_section c _ p "saddr"); [left; reflexivity|reflexivity|exact D|exact T|exact (jt_src _ _ K)|exact Esb|exact Ts2|].
    intros body. unfold kw. destruct T as [->|[-> | ->]]; reflexivity. }
  assert (Sd : section (j_ver c) p d (side_matches (t_destination_address t) (t_destination_address_exclude t) (p_dst p))).
  { rewrite Ed. eapply (side_section c _ p "daddr"); [right; left; reflexivity|reflexivity|exact D|exact T|exact (jt_dst _ _ K)|exact Edb|exact Td2|].
    intros body. unfold kw. destruct T as [->|[-> | ->]]; reflexivity. }
  match type of H with bind ?X _ = _ => destruct X as [types|e] eqn:Et; [|discriminate H] end. cbn [bind] in H.
  destruct (precedence_line (t_precedence t)) as [prec|e] eqn:Ep; [|discriminate H]. cbn [bind] in H. apply ok_inj in H. subst r.
  pose proof (jt_words _ _ K) as W. assert (Wsub : forall l, (forall x, In x l -> In x (t_forwarding_class t ++ t_forwarding_class_except t ++ t_source_prefix t ++ t_destination_prefix t ++
                          t_ether_type t ++ t_traffic_type t ++ t_precedence t ++ t_dscp_match t ++ t_dscp_except t)) -> plain_words l) by (intros l I x J; apply W, I, J).
  pose proof (jt_ports _ _ K) as Po.
  destruct (jt_values _ _ K) as (V1 & V2 & V3).
  destruct (jt_only _ _ K) as (_ & Xs & Xd & _). rewrite Xs, Xd.
  match goal with |- context [renders (["from {"] ++ ?L) _] => idtac end.
  assert (Q : exists lines, forall tail, (a ++ s ++ d
    ++ group_line "forwarding-class" (t_forwarding_class t)
    ++ group_line "forwarding-class-except" (t_forwarding_class_except t)
    ++ prefix_list_block "source-prefix-list" (t_source_prefix t) []
    ++ prefix_list_block "destination-prefix-list" (t_destination_prefix t) []
    ++ (match t_ttl t with
        | Some n => if negb (n =? 0) && String.eqb (jc_type c) "inet" then [append "ttl " (append (dec n) ";")] else []
        | None => [] end)
    ++ group_line "port" (map port_text (t_port t))
    ++ group_line "source-port" (map port_text (t_source_port t))
    ++ group_line "destination-port" (map port_text (t_destination_port t))
    ++ from
    ++ value_line "packet-length" (t_packet_length t)
    ++ value_line "fragment-offset" (t_fragment_offset t)
    ++ group_line "icmp-type" types
    ++ group_line "icmp-code" (map dec (t_icmp_code t))
    ++ group_line "ether-type" (t_ether_type t)
    ++ group_line (kw c "protocol") (map pval_text (replace_first "icmpv6" "icmp6" ps))
    ++ group_line (kw c "protocol-except")
         (map pval_text (replace_first "icmpv6" "icmp6" (replace_first "hopopt" "hop-by-hop" (map PName (t_protocol_except t)))))
    ++ group_line "traffic-type" (t_traffic_type t)
    ++ prec
    ++ (if some (t_dscp_match t)
        then [append (if String.eqb (jc_type c) "inet6" then "traffic-class [ " else "dscp [ ") (append (join " " (t_dscp_match t)) " ];")] else [])
    ++ (if some (t_dscp_except t)
        then [append (if String.eqb (jc_type c) "inet6" then "traffic-class-except [ " else "dscp-except [ ") (append (join " " (t_dscp_except t)) " ];")] else [])
    ++ (if String.eqb (jc_type c) "inet6" then value_line "hop-limit" (t_hop_limit t) else [])
    ++ tail) = lines ++ tail /\ section (j_ver c) p lines (fields_match t p)).
  { eexists. intros tail. split; [rewrite !app_assoc; reflexivity|]. rewrite <- !app_assoc. unfold fields_match.
    assert (pw : forall k, is_empty k = false -> forall_char plain_char k = true -> plain_word k) by apply plain_lit.
    apply section_app; [exact Sa|]. apply section_app; [exact Ss|]. apply section_app; [exact Sd|].
    apply section_app; [apply eq_section; [apply plain_lit; reflexivity|reflexivity|apply Wsub; intros x I; apply in_or_app; left; exact I]|].
    apply section_app; [apply neq_section; [apply plain_lit; reflexivity|reflexivity|apply Wsub; intros x I; rewrite !in_app_iff; tauto]|].
    apply section_app; [apply prefix_list_section; [apply plain_lit; reflexivity|apply Wsub; intros x I; rewrite !in_app_iff; tauto|reflexivity]|].
    apply section_app; [apply prefix_list_section; [apply plain_lit; reflexivity|apply Wsub; intros x I; rewrite !in_app_iff; tauto|reflexivity]|].
    apply section_app; [apply ttl_section, (jt_ttl _ _ K)|].
    apply section_app; [apply port_section; intros x I; apply Po; rewrite !in_app_iff; tauto|].
    apply section_app; [apply sport_section; intros x I; apply Po; rewrite !in_app_iff; tauto|].
    apply section_app; [apply dport_section; intros x I; apply Po; rewrite !in_app_iff; tauto|].
    apply section_app; [exact Fr|].
    apply section_app; [apply range_section; [apply plain_lit; reflexivity|reflexivity|exact V2]|].
    apply section_app; [apply range_section; [apply plain_lit; reflexivity|reflexivity|exact V1]|].
    apply section_app; [eapply icmp_type_section; [exact T|exact Et]|].
    apply section_app; [apply icmp_code_section, (jt_codes _ _ K)|].
    apply section_app; [apply eq_section; [apply plain_lit; reflexivity|reflexivity|apply Wsub; intros x I; rewrite !in_app_iff; tauto]|].
    apply section_app; [apply protocol_section; assumption|].
    apply section_app; [apply protocol_except_section; [exact T|intros q I; apply (jt_protocol _ _ K), in_or_app; right; exact I]|].
    apply section_app; [apply eq_section; [apply plain_lit; reflexivity|reflexivity|apply Wsub; intros x I; rewrite !in_app_iff; tauto]|].
    apply section_app; [eapply precedence_section; [apply Wsub; intros x I; rewrite !in_app_iff; tauto|exact Ep]|].
    apply section_app.
    { assert (Wd : plain_words (t_dscp_match t)) by (apply Wsub; intros x I; rewrite !in_app_iff; tauto).
      destruct T as [->|[-> | ->]]; cbn [String.eqb Ascii.eqb Bool.eqb].
      - apply (dscp_section (j_ver c) p "dscp"); [apply plain_lit; reflexivity|reflexivity|exact Wd].
      - apply (dscp_section (j_ver c) p "traffic-class"); [apply plain_lit; reflexivity|reflexivity|exact Wd].
      - apply (dscp_section (j_ver c) p "dscp"); [apply plain_lit; reflexivity|reflexivity|exact Wd]. }
    apply section_app.
    { assert (Wd : plain_words (t_dscp_except t)) by (apply Wsub; intros x I; rewrite !in_app_iff; tauto).
      destruct T as [->|[-> | ->]]; cbn [String.eqb Ascii.eqb Bool.eqb].
      - apply (dscp_except_section (j_ver c) p "dscp-except"); [apply plain_lit; reflexivity|reflexivity|exact Wd].
      - apply (dscp_except_section (j_ver c) p "traffic-class-except"); [apply plain_lit; reflexivity|reflexivity|exact Wd].
      - apply (dscp_except_section (j_ver c) p "dscp-except"); [apply plain_lit; reflexivity|reflexivity|exact Wd]. }
    apply hops_section; [exact T|exact V3|exact (jt_hops _ _ K)]. }
  destruct Q as (lines & Q). destruct (Q ["}"]) as (Q1 & Q2). rewrite Q1. apply section_block, Q2.
Qed.

(** ** The then clause *)

Definition silent (lines : list string) : Prop :=
  exists l, renders lines l /\ forallb stmt_ok l = true /\ forall ws o, In (Leaf ws) l -> ~ decision ws o.
Lemma silent_nil : silent [].
Proof. exists []. split; [apply renders_nil|]. split; [reflexivity|]. intros ws o []. Qed.
Lemma silent_app a b : silent a -> silent b -> silent (a ++ b).
Proof.
  intros (x & X1 & X2 & X3) (y & Y1 & Y2 & Y3). exists (x ++ y). split; [apply renders_app; assumption|]. split; [rewrite forallb_app, X2, Y2; reflexivity|].
  intros ws o I. apply in_app_or in I. destruct I as [I|I]; eauto.
Qed.
Lemma silent_leaf line ws : chunk line (ws ++ [";"]) -> forallb word_ok ws = true -> (forall o, ~ decision ws o) -> silent [line].
Proof.
  intros C W N. exists [Leaf ws]. split; [apply renders_line, C|]. split; [cbn [forallb stmt_ok]; rewrite W; reflexivity|].
  intros ws' o [E|[]]. injection E as <-. apply N.
Qed.
Lemma silent_map {A} (f : A -> string) l : (forall x, In x l -> silent [f x]) -> silent (map f l).
Proof.
  induction l as [|x l IH]; intros H; [apply silent_nil|]. cbn [map]. apply (silent_app [f x]); [apply H; left; reflexivity|].
  apply IH. intros y I. apply H. right. exact I.
Qed.
Ltac no_decision := let o := fresh in let E := fresh in let r := fresh in
  intros o [(E & _)|[(E & _)|(r & E & _)]]; discriminate E.
Lemma verdict_words a : In a ["accept"; "deny"; "reject"; "reject-with-tcp-rst"; "next"] ->
  exists txt ws, assoc a juniper_actions = Some txt /\ chunk (txt ++ ";")%string (ws ++ [";"]) /\ chunk ("then " ++ txt ++ ";")%string (("then" :: ws) ++ [";"]) /\
    forallb word_ok ws = true /\ txt <> "encapsulate" /\ txt <> "decapsulate" /\
    forall o, decision ws o <-> juniper_verdict a = Some o.
Proof.
  assert (X : forall a txt ws, assoc a juniper_actions = Some txt -> closed (txt ++ ";") = true -> closed ("then " ++ txt ++ ";") = true ->
     Ascii.eqb (match (txt ++ ";")%string with String c _ => c | "" => " "%char end) "*" = false ->
     tokens false "" (txt ++ ";") = ws ++ [";"] -> tokens false "" ("then " ++ txt ++ ";") = ("then" :: ws) ++ [";"] ->
     forallb word_ok ws = true -> txt <> "encapsulate" -> txt <> "decapsulate" -> (forall o, decision ws o <-> juniper_verdict a = Some o) ->
     exists txt ws, assoc a juniper_actions = Some txt /\ chunk (txt ++ ";")%string (ws ++ [";"]) /\ chunk ("then " ++ txt ++ ";")%string (("then" :: ws) ++ [";"]) /\
    forallb word_ok ws = true /\ txt <> "encapsulate" /\ txt <> "decapsulate" /\
    forall o, decision ws o <-> juniper_verdict a = Some o).
  { intros a' txt ws E1 E2 E3 E4 E5 E6 E7 E8 E9 E10. exists txt, ws. split; [exact E1|]. split; [apply chunk_lit; assumption|].
    split; [apply chunk_lit; [exact E3|reflexivity|exact E6]|]. auto. }
  intros [<-|[<-|[<-|[<-|[<-|[]]]]]].
  - apply (X "accept" "accept" ["accept"]); try reflexivity; try discriminate. intros o. change (juniper_verdict "accept") with (Some "accept"). split.
    + intros [(_ & ->)|[(E & _)|(r & E & _)]]; [reflexivity|discriminate E..].
    + intros E. injection E as <-. left. auto.
  - apply (X "deny" "discard" ["discard"]); try reflexivity; try discriminate. intros o. change (juniper_verdict "deny") with (Some "discard"). split.
    + intros [(E & _)|[(_ & ->)|(r & E & _)]]; [discriminate E|reflexivity|discriminate E].
    + intros E. injection E as <-. right. left. auto.
  - apply (X "reject" "reject" ["reject"]); try reflexivity; try discriminate. intros o. change (juniper_verdict "reject") with (Some "reject"). split.
    + intros [(E & _)|[(E & _)|(r & _ & ->)]]; [discriminate E|discriminate E|reflexivity].
    + intros E. injection E as <-. right. right. exists []. auto.
  - apply (X "reject-with-tcp-rst" "reject tcp-reset" ["reject"; "tcp-reset"]); try reflexivity; try discriminate. intros o. change (juniper_verdict "reject-with-tcp-rst") with (Some "reject"). split.
    + intros [(E & _)|[(E & _)|(r & _ & ->)]]; [discriminate E|discriminate E|reflexivity].
    + intros E. injection E as <-. right. right. exists ["tcp-reset"]. auto.
  - apply (X "next" "next term" ["next"; "term"]); try reflexivity; try discriminate. intros o. change (juniper_verdict "next") with (@None string). split.
    + intros [(E & _)|[(E & _)|(r & E & _)]]; discriminate E.
    + discriminate.
Qed.
Lemma add_until_in a u : forall more, In a u -> In a (add_until u more).
Proof.
  intros more. revert u. induction more as [|l more IH]; intros u I; [exact I|]. cbn [add_until]. destruct (some l); [|apply IH, I].
  assert (J : In a (nodup_str (u ++ l))) by (apply nodup_str_in, in_or_app; left; exact I).
  cbv zeta. destruct (1 <? Zlen (nodup_str (u ++ l))); [exact J|apply IH, J].
Qed.
Lemma add_until_nonnil u more : u <> [] -> add_until u more <> [].
Proof. destruct u as [|a u]; [congruence|]. intros _ E. pose proof (add_until_in a (a :: u) more (or_introl eq_refl)) as I. rewrite E in I. destruct I. Qed.
Definition then_only (st : list stmt) : Prop := forall ws body, In (Block ws body) st -> ws = ["then"].
Lemma then_says_lines c t extra n ls : juniper_term_ok c t -> extra = repeat "sample" n -> then_lines c t extra = Ok ls ->
  exists st, renders ls st /\ forallb stmt_ok st = true /\ then_only st /\
    forall o, then_says st o <-> exists a, t_action t = [a] /\ juniper_verdict a = Some o.
Proof.
  intros K -> H. destruct (jt_action _ _ K) as (a & Ea & Ia). destruct (jt_then _ _ K) as (Gr & Ge & Gd & Ni & Pc).
  destruct (verdict_words a Ia) as (txt & ws & Et & C1 & C2 & W & N1 & N2 & V).
  unfold then_lines in H. destruct (check_terminating_action t); [|discriminate H]. cbn [bind] in H.
  set (u := unique_actions t (repeat "sample" n)) in *.
  assert (Iu : In a u).
  { unfold u, unique_actions. rewrite Gr, Ge, Gd, Ea. rewrite !app_nil_r.
    assert (J : In a (nodup_str (repeat "sample" n ++ [a]))) by (apply nodup_str_in, in_or_app; right; left; reflexivity).
    destruct (Zlen _ <=? 1); [apply add_until_in|]; exact J. }
  clearbody u.
  assert (Vo : forall o, decision ws o <-> exists a0, t_action t = [a0] /\ juniper_verdict a0 = Some o).
  { intros o. rewrite V, Ea. split; [intros E; exists a; auto|]. intros (b0 & E0 & X). injection E0 as E0. subst b0. exact X. }
  assert (Block1 : ls = ["then {"; (txt ++ ";")%string; "}"] -> exists st, renders ls st /\ forallb stmt_ok st = true /\ then_only st /\
    forall o, then_says st o <-> exists a, t_action t = [a] /\ juniper_verdict a = Some o).
  { intros ->. exists [Block ["then"] [Leaf ws]]. split; [|split; [|split]].
    - apply (renders_block "then {" ["then"] [(txt ++ ";")%string]); [apply chunk_lit; reflexivity|]. apply renders_line, C1.
    - cbn [forallb stmt_ok]. rewrite W. reflexivity.
    - intros w b [E|[]]. injection E as <- _. reflexivity.
    - intros o. rewrite <- Vo. split.
      + intros (w & Dw & [[E|[]]|(acts & [E|[]] & J)]); [discriminate E|]. injection E as <-. destruct J as [E|[]]. injection E as <-. exact Dw.
      + intros Dw. exists ws. split; [exact Dw|]. right. exists [Leaf ws]. split; left; reflexivity. }
  assert (Line1 : ls = [("then " ++ txt ++ ";")%string] -> exists st, renders ls st /\ forallb stmt_ok st = true /\ then_only st /\
    forall o, then_says st o <-> exists a, t_action t = [a] /\ juniper_verdict a = Some o).
  { intros ->. exists [Leaf ("then" :: ws)]. split; [|split; [|split]].
    - apply renders_line, C2.
    - cbn [forallb stmt_ok]. rewrite W. reflexivity.
    - intros w b [E|[]]. discriminate E.
    - intros o. rewrite <- Vo. split.
      + intros (w & Dw & [[E|[]]|(acts & [E|[]] & J)]); [|discriminate E]. injection E as <-. exact Dw.
      + intros Dw. exists ws. split; [exact Dw|]. left. left. reflexivity. }
  destruct u as [|one [|two u]]; [destruct Iu| |].
  - destruct Iu as [->|[]]. rewrite Et in H.
    destruct ((String.eqb (jc_type c) "inet" && str_in txt ["discard"; "reject"; "reject tcp-reset"])
             || (String.eqb (jc_type c) "inet6" && str_in txt ["reject"; "reject tcp-reset"])).
    + apply ok_inj in H. apply Block1. symmetry. exact H.
    + apply String.eqb_neq in N1, N2. rewrite N1, N2 in H. apply ok_inj in H. apply Line1. symmetry. exact H.
  - clear Block1 Line1. rewrite Ni in H. cbn [some bind] in H. rewrite Gr in H. rewrite Ea in H. cbn [mapM] in H. rewrite Et in H. cbn [bind] in H. apply ok_inj in H. subst ls.
    assert (Vl : forall k o, given o = false -> value_line k o = []).
    { intros k o G. unfold value_line. destruct o as [s|]; [|reflexivity]. cbn [given] in G. unfold nonempty in G. apply negb_false_iff in G. rewrite G. reflexivity. }
    rewrite (Vl _ _ Gr), (Vl _ _ Ge), (Vl _ _ Gd). cbn [app].
    assert (Q : silent (map (fun l => if String.eqb l "local" then "log;" else "syslog;") (t_logging t) ++ value_line "count" (t_counter t)
        ++ (if given (t_port_mirror t) then ["port-mirror;"] else []) ++ map (fun a => (a ++ ";")%string) (repeat "sample" n))).
    { apply silent_app; [|apply silent_app; [|apply silent_app]].
      - apply silent_map. intros l _. destruct (String.eqb l "local").
        + apply (silent_leaf _ ["log"]); [apply chunk_lit; reflexivity|reflexivity|no_decision].
        + apply (silent_leaf _ ["syslog"]); [apply chunk_lit; reflexivity|reflexivity|no_decision].
      - unfold value_line. destruct (t_counter t) as [s|] eqn:Ec; [|apply silent_nil]. destruct (is_empty s) eqn:Es; [apply silent_nil|].
        assert (Ps : plain_word s) by (apply Pc; [reflexivity|intros ->; discriminate Es]).
        apply (silent_leaf _ ["count"; s]); [|cbn [forallb]; rewrite (plain_ok _ Ps); reflexivity|no_decision].
        apply chunk_key; [apply plain_lit; reflexivity|]. apply (chunk_word_special s ";"); [exact Ps|reflexivity].
      - destruct (given (t_port_mirror t)); [|apply silent_nil]. apply (silent_leaf _ ["port-mirror"]); [apply chunk_lit; reflexivity|reflexivity|no_decision].
      - apply silent_map. intros x I. apply repeat_spec in I. subst x. apply (silent_leaf _ ["sample"]); [apply chunk_lit; reflexivity|reflexivity|no_decision]. }
    destruct Q as (q & Q1 & Q2 & Q3). exists [Block ["then"] (q ++ [Leaf ws])]. split; [|split; [|split]].
    + match goal with |- renders ("then {" :: ?L) _ => replace ("then {" :: L) with (["then {"] ++ ((map (fun l => if String.eqb l "local" then "log;" else "syslog;") (t_logging t) ++ value_line "count" (t_counter t)
        ++ (if given (t_port_mirror t) then ["port-mirror;"] else []) ++ map (fun a => (a ++ ";")%string) (repeat "sample" n)) ++ [(txt ++ ";")%string]) ++ ["}"]) end.
      * apply renders_block; [apply chunk_lit; reflexivity|]. apply renders_app; [exact Q1|]. apply renders_line, C1.
      * rewrite <- !app_assoc. reflexivity.
    + cbn [forallb stmt_ok]. rewrite forallb_app, Q2. cbn [forallb stmt_ok]. rewrite W. reflexivity.
    + intros w b [E|[]]. injection E as <- _. reflexivity.
    + intros o. rewrite <- Vo. split.
      * intros (w & Dw & [[E|[]]|(acts & [E|[]] & J)]); [discriminate E|]. injection E as <-. apply in_app_or in J.
        destruct J as [J|[E|[]]]; [destruct (Q3 _ _ J Dw)|injection E as <-; exact Dw].
      * intros Dw. exists ws. split; [exact Dw|]. right. eexists. split; [left; reflexivity|]. apply in_or_app. right. left. reflexivity.
Qed.

(** ** The term *)

Lemma fields_term c t p : juniper_term_ok c t -> any_or (t_platform t) (eq (p_platform p)) -> none_of (t_platform_exclude t) (eq (p_platform p)) ->
  opt_eq (t_restrict_address_family t) (p_family p) -> fields_match t p <-> term_matches t p.
Proof.
  intros K P1 P2 R. destruct (jt_only _ _ K) as (X1 & X2 & X3 & X4 & X5 & X6 & X7 & X8 & X9 & _).
  unfold fields_match, term_matches, addresses_match, protocols_match, all_ports_match, prefixes_match, options_match, numbers_match, icmp_match,
    place_matches, link_matches. rewrite X1, X2, X3, X4, X5, X6, X7, X8, X9. cbn [opt_eq].
  assert (N : forall (A : Type) (Q : A -> Prop), none_of [] Q) by (intros A Q a []).
  assert (An : forall (A : Type) (Q : A -> Prop), any_or [] Q) by (intros A Q; left; reflexivity).
  split; intros H; decompose [and] H; clear H;
    repeat match goal with |- _ /\ _ => split end; try assumption; try apply N; try apply An; exact I.
Qed.
Lemma some_false {A} (l : list A) : some l = false -> l = [].
Proof. destruct l; [reflexivity|discriminate]. Qed.
Lemma given_range o n : given o = false -> text_range o n.
Proof. destruct o as [s|]; [|intros _; exact I]. cbn [given]. unfold nonempty. destruct s; [intros _; left; reflexivity|discriminate]. Qed.
Lemma no_criteria c t ps p : juniper_term_ok c t -> juniper_traffic c p -> protocols_listed c t ps -> has_match_criteria t ps = false -> fields_match t p.
Proof.
  intros K Tr (qs & _ & E & _) H. unfold has_match_criteria in H. rewrite !orb_false_iff in H.
  decompose [and] H. clear H.
  repeat match goal with H : some _ = false |- _ => apply some_false in H end.
  assert (Pr : t_protocol t = []) by (apply E; assumption).
  assert (Nc : ~ has_condition t) by (unfold has_condition; tauto).
  assert (An : forall (A : Type) (Q : A -> Prop), any_or [] Q) by (intros A Q; left; reflexivity).
  assert (N : forall (A : Type) (Q : A -> Prop), none_of [] Q) by (intros A Q a []).
  assert (Cv : forall y, ~ covered [] y) by (intros y (e & [] & _)).
  pose proof (jt_condition _ _ K) as Jc.
  destruct (jt_src _ _ K) as (_ & _ & Xs & _). destruct (jt_dst _ _ K) as (_ & _ & Xd & _).
  unfold fields_match.
  repeat match goal with H : ?f t = [] |- _ => rewrite H in * end.
  specialize (Xs eq_refl). specialize (Xd eq_refl). rewrite Xs, Xd.
  assert (Tp : t_icmp_type t = []) by (destruct (t_icmp_type t); [reflexivity|exfalso; apply Nc, Jc; right; right; left; discriminate]).
  assert (Cd : t_icmp_code t = []) by (destruct (t_icmp_code t); [reflexivity|exfalso; apply Nc, Jc; right; right; right; discriminate]).
  assert (Ln : given (t_packet_length t) = false) by (destruct (given (t_packet_length t)); [exfalso; apply Nc, Jc; tauto|reflexivity]).
  rewrite Tp, Cd.
  assert (Ttl : opt_eq (t_ttl t) (p_ttl p)).
  { destruct (t_ttl t) as [n|] eqn:En; [|exact I]. destruct (jt_ttl _ _ K n En) as (L & _). exfalso.
    match goal with H : negb (n =? 0) = false |- _ => apply negb_false_iff in H; lia end. }
  repeat match goal with |- _ /\ _ => split end; try apply An; try apply N; try assumption; try (apply given_range; assumption).
  - left. auto.
  - split; [left; reflexivity|apply Cv].
  - split; [left; reflexivity|apply Cv].
  - left. left. reflexivity.
  - intros o I. destruct (String.eqb o "sample") eqn:Eo; [apply String.eqb_eq in Eo; subst o; apply Tr|].
    apply String.eqb_neq in Eo. exfalso. apply Nc, Jc. left. exists o. auto.
Qed.
Lemma stand_in x xs qs : stand_for xs qs -> In x xs -> exists q, In q qs /\ stands_for x q.
Proof. induction 1 as [|a q xs qs S F IH]; [intros []|]. intros [<-|I]; [exists q; split; [left; reflexivity|exact S]|]. destruct (IH I) as (r & J & R). exists r. split; [right; exact J|exact R]. Qed.
Lemma family_protocols c t ps : filter_family (jc_type c) -> juniper_term_ok c t -> juniper_init (map PName (t_protocol t)) = Ok ps ->
  let ps' := if String.eqb (jc_type c) "inet6" then remove_pval "icmp" ps
             else if String.eqb (jc_type c) "inet" then remove_pval "icmp6" (remove_pval "icmpv6" ps) else ps in
  (exists qs, stand_for ps' qs /\ forall q, q <> match j_ver c with V4 => "icmpv6" | V6 => "icmp" end -> In q qs <-> In q (t_protocol t)) /\
  (ps = [] <-> t_protocol t = []) /\ (t_protocol t = ["tcp"] -> only_tcp ps' = true) /\ (In "tcp" (t_protocol t) -> existsb (pval_is "tcp") ps' = true).
Proof.
  intros T K H. assert (F : stand_for ps (t_protocol t)).
  { apply init_stands; [|exact H]. intros q I. apply (jt_protocol _ _ K), in_or_app. left. exact I. }
  assert (Nn : ps = [] <-> t_protocol t = []).
  { split; intros E; [rewrite E in F; inversion F; reflexivity|rewrite E in F; inversion F; reflexivity]. }
  assert (Sub : forall a l x, In x l -> pval_is a x = false -> In x (remove_pval a l)).
  { intros a l x. induction l as [|y l IH]; [intros []|]. cbn [remove_pval]. intros [<-|I] E; [rewrite E; left; reflexivity|].
    destruct (pval_is a y); [exact I|right; auto]. }
  assert (Has : In "tcp" (t_protocol t) -> In (PName "tcp") ps).
  { clear -F. induction F as [|x q xs qs S F IH]; [intros []|]. intros [->|I]; [|right; auto]. left.
    destruct S as (_ & [->|[(E & _)|[(E & _)|(E & _)]]]); [reflexivity|discriminate E..]. }
  assert (Only : t_protocol t = ["tcp"] -> ps = [PName "tcp"]).
  { intros E. rewrite E in F. inversion F as [|x q xs qs S F0]; subst. inversion F0; subst. f_equal.
    destruct S as (_ & [->|[(X & _)|[(X & _)|(X & _)]]]); [reflexivity|discriminate X..]. }
  assert (I1 : forall q, stands_for (PName "icmp") q -> q = "icmp").
  { intros q (_ & [E|[(_ & E)|[(_ & E)|(_ & E)]]]); try discriminate E. injection E as <-. reflexivity. }
  assert (I2 : forall q, stands_for (PName "icmpv6") q -> q = "icmpv6").
  { intros q (_ & [E|[(_ & E)|[(_ & E)|(_ & E)]]]); try discriminate E. injection E as <-. reflexivity. }
  assert (No6 : forall l, (forall x, In x l -> pval_is "icmp6" x = false) -> remove_pval "icmp6" l = l).
  { induction l as [|x l IH]; intros Hl; [reflexivity|]. cbn [remove_pval]. rewrite (Hl x (or_introl eq_refl)), IH; [reflexivity|]. intros y I. apply Hl. right. exact I. }
  assert (Nop : forall x, In x ps -> pval_is "icmp6" x = false).
  { intros x I. unfold juniper_init in H. destruct (forallb _ _); [|discriminate H]. apply ok_inj in H. subst ps.
    assert (G : forall l, (forall q, In q l -> In q (map fst proto_map)) ->
      forall y, In y (replace_first "hopopt" "hop-by-hop" (map (fun p => if pval_is "ipip" p then PNum 4 else p) (map PName l))) -> pval_is "icmp6" y = false).
    { clear. assert (G0 : forall l y, (forall q, In q l -> In q (map fst proto_map)) -> In y (map (fun p => if pval_is "ipip" p then PNum 4 else p) (map PName l)) -> pval_is "icmp6" y = false).
      { intros l y Hl I. rewrite map_map in I. apply in_map_iff in I. destruct I as (q & <- & I). cbn [pval_is]. destruct (String.eqb q "ipip"); [reflexivity|].
        cbn [pval_is]. apply String.eqb_neq. apply proto_name_ok, Hl, I. }
      assert (G1 : forall xs y, In y (replace_first "hopopt" "hop-by-hop" xs) -> In y xs \/ y = PName "hop-by-hop").
      { induction xs as [|x xs IH]; intros y; [intros []|]. cbn [replace_first]. destruct (pval_is "hopopt" x).
        - intros [<-|I]; [right; reflexivity|left; right; exact I].
        - intros [<-|I]; [left; left; reflexivity|]. destruct (IH y I); [left; right; assumption|right; assumption]. }
      intros l Hl y I. apply G1 in I. destruct I as [I| ->]; [exact (G0 l y Hl I)|reflexivity]. }
    apply (G (t_protocol t)); [|exact I]. intros q J. apply (jt_protocol _ _ K), in_or_app. left. exact J. }
  destruct T as [T|[T|T]]; unfold j_ver; rewrite T; cbn [String.eqb Ascii.eqb Bool.eqb].
  - cbv zeta. assert (E6 : remove_pval "icmp6" (remove_pval "icmpv6" ps) = remove_pval "icmpv6" ps).
    { apply No6. intros x I. apply Nop. clear -I. induction ps as [|y ps IH]; [destruct I|]. cbn [remove_pval] in I. destruct (pval_is "icmpv6" y); [right; exact I|].
      destruct I as [<-|I]; [left; reflexivity|right; auto]. }
    rewrite E6. split; [exact (stand_remove _ _ _ F I2)|]. split; [exact Nn|]. split.
    + intros E. rewrite (Only E). reflexivity.
    + intros I. apply existsb_exists. exists (PName "tcp"). split; [apply Sub; [apply Has, I|reflexivity]|reflexivity].
  - cbv zeta. split; [exact (stand_remove _ _ _ F I1)|]. split; [exact Nn|]. split.
    + intros E. rewrite (Only E). reflexivity.
    + intros I. apply existsb_exists. exists (PName "tcp"). split; [apply Sub; [apply Has, I|reflexivity]|reflexivity].
  - cbv zeta. split; [exists (t_protocol t); split; [exact F|intros q _; reflexivity]|]. split; [exact Nn|]. split.
    + intros E. rewrite (Only E). reflexivity.
    + intros I. apply existsb_exists. exists (PName "tcp"). split; [apply Has, I|reflexivity].
Qed.
(** The statements a rendered term reads as. *)
Definition term_reads (c : juniper_cfg) (t : term) (inactive : bool) (p : packet) (ls : list string) : Prop :=
  exists st, renders ls st /\ forallb stmt_ok st = true /\
    forall o, (exists s, In s st /\ term_says (j_ver c) p s o) <->
      inactive = false /\ term_matches t p /\ exists a, t_action t = [a] /\ juniper_verdict a = Some o.
Lemma indented_renders outs lines l : Forall2 indented outs lines -> renders lines l -> renders outs l.
Proof. intros F R rest. rewrite (same_cat _ _ F rest rest (fun m => eq_refl) false). apply R. Qed.
Lemma head_chunk (inactive : bool) name : plain_word name ->
  chunk (append (if inactive then "inactive:" else "") (append " term " (append name " {")))
    ((if inactive then ["inactive:"; "term"; name] else ["term"; name]) ++ ["{"]).
Proof.
  intros P. assert (C : chunk (append name " {") [name; "{"]).
  { change (" {")%string with (" " ++ "{")%string. apply chunk_key; [exact P|]. apply chunk_lit; reflexivity. }
  destruct inactive.
  - change (append "inactive:" (append " term " (append name " {"))) with (append "inactive: term " (append name " {")).
    change (["inactive:"; "term"; name] ++ ["{"]) with (["inactive:"; "term"] ++ [name; "{"]). apply chunk_app; [apply chunk_lit; reflexivity|exact C].
  - change (append "" (append " term " (append name " {"))) with (append " term " (append name " {")).
    change (["term"; name] ++ ["{"]) with (["term"] ++ [name; "{"]). apply chunk_app; [apply chunk_lit; reflexivity|exact C].
Qed.
Lemma term_exact c t inactive ps ls ps' p : juniper_term_ok c t -> juniper_traffic c p -> opt_eq (t_restrict_address_family t) (p_family p) ->
  quiet_comments (term_comments t) -> juniper_init (map PName (t_protocol t)) = Ok ps -> juniper_term c t inactive ps = Ok (ls, ps') ->
  term_reads c t inactive p ls.
Proof.
  intros K Tr R Qc Hi H. pose proof (jt_type _ _ K) as T. pose proof Tr as (_ & _ & _ & _ & Np & F1 & F2 & F3 & Tp & _).
  destruct (family_protocols c t ps T K Hi) as ((qs & Sq & Mq) & Nn & Only & Has).
  assert (Skip : ~ term_matches t p -> ls = [] -> term_reads c t inactive p ls).
  { intros N ->. exists []. split; [apply renders_nil|]. split; [reflexivity|]. intros o. split; [intros (s & [] & _)|]. intros (_ & X & _). destruct (N X). }
  unfold juniper_term in H.
  destruct ((some (t_platform t) && negb (str_in "juniper" (t_platform t))) || (some (t_platform_exclude t) && str_in "juniper" (t_platform_exclude t))) eqn:Pf.
  { apply ok_inj in H. injection H as <- _. apply Skip; [|reflexivity]. intros X. destruct X as (_ & _ & _ & _ & _ & _ & _ & (P1 & P2 & _) & _).
    rewrite Tp in P1, P2. apply orb_true_iff in Pf. rewrite !andb_true_iff in Pf. destruct Pf as [(A & B)|(A & B)].
    - apply negb_true_iff in B. destruct P1 as [E|(q & I & <-)]; [rewrite E in A; discriminate A|]. apply str_in_iff in I. congruence.
    - apply str_in_iff in B. exact (P2 _ B eq_refl). }
  apply orb_false_iff in Pf. destruct Pf as (Pf1 & Pf2).
  assert (P1 : any_or (t_platform t) (eq (p_platform p))).
  { rewrite Tp. destruct (t_platform t) as [|x l] eqn:E; [left; reflexivity|]. right. cbn [some andb] in Pf1. apply negb_false_iff in Pf1.
    exists "juniper". split; [apply str_in_iff, Pf1|reflexivity]. }
  assert (P2 : none_of (t_platform_exclude t) (eq (p_platform p))).
  { rewrite Tp. intros q I <-. destruct (t_platform_exclude t) as [|x l] eqn:E; [destruct I|]. cbn [some andb] in Pf2. apply str_in_iff in I. congruence. }
  pose proof (fields_term c t p K P1 P2 R) as Fm.
  set (qs' := if String.eqb (jc_type c) "inet6" then remove_pval "icmp" ps
               else if String.eqb (jc_type c) "inet" then remove_pval "icmp6" (remove_pval "icmpv6" ps) else ps) in *.
  cbv zeta in H. destruct (negb (some qs') && some ps) eqn:Em.
  { apply ok_inj in H. injection H as <- _. apply Skip; [|reflexivity]. intros X. apply andb_true_iff in Em. destruct Em as (E1 & E2).
    apply negb_true_iff, some_false in E1. rewrite E1 in Sq. inversion Sq; subst. destruct X as (_ & (X & _) & _).
    destruct X as [X|(q & I & Eq)]; [apply Nn in X; rewrite X in E2; discriminate E2|]. subst q. apply (Mq (p_proto p) Np) in I. destruct I. }
  assert (Pl : protocols_listed c t qs').
  { exists qs. split; [exact Sq|]. split; [|exact Mq]. rewrite <- Nn. apply andb_false_iff in Em. split; intros E.
    - destruct Em as [Em|Em]; [rewrite E in Em; discriminate Em|apply some_false, Em].
    - unfold qs'. rewrite E. destruct (String.eqb (jc_type c) "inet6"), (String.eqb (jc_type c) "inet"); reflexivity. }
  destruct (jt_only _ _ K) as (_ & _ & _ & _ & _ & _ & _ & _ & _ & Vb & Ft). rewrite Vb, Ft in H. cbn [some] in H.
  destruct (juniper_options c qs' ([], []) (t_option t)) as [(extra, from)|e] eqn:Eo; [|discriminate H]. cbn [bind] in H.
  destruct (options_section c qs' t p (j_ver c) T (conj F1 (conj F2 F3)) Only Has _ _ _ (jt_option _ _ K) Eo) as (So & n & En).
  match type of H with bind ?X _ = _ => destruct X as [fr|e] eqn:Ef; [|discriminate H] end. cbn [bind] in H.
  assert (Fr : match fr with
    | None => ~ fields_match t p
    | Some fl => exists fs, renders fl fs /\ forallb stmt_ok fs = true /\ (forall x, In x fs -> exists conds, x = Block ["from"] conds) /\
        ((forall conds s, In (Block ["from"] conds) fs -> In s conds -> holds (j_ver c) p s) <-> fields_match t p)
    end).
  { destruct (has_match_criteria t qs') eqn:Ec.
    - pose proof (from_says c t qs' from p fr K Tr Pl So Ef) as X. destruct fr as [fl|]; [|exact X]. destruct X as (conds & X1 & X2 & X3).
      exists [Block ["from"] conds]. split; [exact X1|]. split; [cbn [forallb]; rewrite X2; reflexivity|]. split; [intros x [<-|[]]; exists conds; reflexivity|].
      rewrite <- X3. split; [intros A s I; apply (A conds s (or_introl eq_refl) I)|]. intros A cs s [E|[]] I. injection E as <-. exact (A s I).
    - apply ok_inj in Ef. subst fr. exists []. split; [apply renders_nil|]. split; [reflexivity|]. split; [intros x []|].
      split; [intros _; exact (no_criteria c t qs' p K Tr Pl Ec)|intros _ cs s []]. }
  destruct fr as [fl|]; [|apply ok_inj in H; injection H as <- _; apply Skip; [rewrite <- Fm; exact Fr|reflexivity]].
  destruct Fr as (fs & R1 & O1 & B1 & S1).
  destruct (then_lines c t extra) as [th|e] eqn:Et; [|discriminate H]. cbn [bind] in H.
  destruct (then_says_lines c t extra n th K En Et) as (ts & R2 & O2 & B2 & S2).
  destruct (append_lines 12 (12, []) _) as [(ind, acc)|e] eqn:Ea; [|discriminate H]. cbn [bind] in H.
  destruct (append_lines_out _ _ _ _ _ _ Ea) as (outs & -> & Fo). unfold config_lines in H. cbn [fst snd] in H.
  destruct (ind =? 12); [|discriminate H]. cbn [bind] in H. rewrite app_nil_r, rev_involutive in H.
  apply ok_inj in H. apply (f_equal fst) in H. cbn [fst] in H. subst ls.
  set (hw := if inactive then ["inactive:"; "term"; t_name t] else ["term"; t_name t]).
  assert (Rr : renders outs ([] ++ [Block hw (fs ++ ts)])).
  { eapply indented_renders; [exact Fo|]. rewrite <- app_assoc. apply renders_app; [apply term_comment_silent, Qc|].
    replace (fl ++ th ++ ["}"]) with ((fl ++ th) ++ ["}"]) by (rewrite <- app_assoc; reflexivity).
    apply renders_block; [apply head_chunk, (jt_name _ _ K)|]. apply renders_app; assumption. }
  exists [Block hw (fs ++ ts)]. split; [exact Rr|]. split.
  { cbn [forallb stmt_ok]. rewrite forallb_app, O1, O2, !andb_true_r. unfold hw. pose proof (plain_ok _ (jt_name _ _ K)) as X.
    destruct inactive; cbn [forallb]; rewrite X; reflexivity. }
  assert (Th : forall o, then_says (fs ++ ts) o <-> then_says ts o).
  { intros o. unfold then_says. split.
    - intros (w & D & [I|(acts & I & J)]); exists w; (split; [exact D|]).
      + left. apply in_app_or in I. destruct I as [I|I]; [|exact I]. destruct (B1 _ I) as (cs & E). discriminate E.
      + right. exists acts. split; [|exact J]. apply in_app_or in I. destruct I as [I|I]; [|exact I]. destruct (B1 _ I) as (cs & E). discriminate E.
    - intros (w & D & [I|(acts & I & J)]); exists w; (split; [exact D|]); [left; apply in_or_app; right; exact I|].
      right. exists acts. split; [apply in_or_app; right; exact I|exact J]. }
  assert (Fh : from_holds (j_ver c) p (fs ++ ts) <-> fields_match t p).
  { rewrite <- S1. unfold from_holds. split.
    - intros A cs s I J. apply (A cs s); [apply in_or_app; left; exact I|exact J].
    - intros A cs s I J. apply in_app_or in I. destruct I as [I|I]; [exact (A cs s I J)|]. discriminate (B2 _ _ I). }
  intros o. rewrite <- Fm, <- Fh, <- S2, <- Th. unfold hw. destruct inactive; split.
  - intros (s & [<-|[]] & X). destruct X.
  - intros (X & _). discriminate X.
  - intros (s & [<-|[]] & X). cbn [term_says] in X. tauto.
  - intros (_ & X). eexists. split; [left; reflexivity|]. cbn [term_says]. tauto.
Qed.

(** Filters and whole tables. *)
From Coq Require Import Lia ZifyBool ZifyNat.
From Verif Require Import SpecIptables BaseFacts PyStrFacts TextProofs PortProofs GenProofs GenProofs2 CiscoProofs CiscoProofs2 CiscoTerm CiscoAcl WrapProofs JuniperTerm JuniperFilter
  IptText IPFacts PolicyProofs IptProofs IptLine IptPart IptCombo IptAddr IptTerm IptRule IptTermExact.
Local Open Scope string_scope.
Local Open Scope list_scope.
Local Open Scope Z_scope.

(** ** Names *)

Lemma plain_app a b : plain_arg a -> forall_char arg_char b = true -> plain_arg (a ++ b)%string.
Proof. intros (N & A) B. split; [destruct a; [congruence|discriminate]|]. rewrite forall_char_app, A, B. reflexivity. Qed.
Lemma substituted_chars w b s r : forall_char arg_char b = true -> substituted w b s r -> forall_char arg_char s = true -> forall_char arg_char r = true.
Proof.
  intros B. induction 1 as [s N|p r r' F S IH]; [auto|]. rewrite !forall_char_app. intros H. apply andb_true_iff in H. destruct H as (H1 & H2). apply andb_true_iff in H2. destruct H2 as (_ & H2).
  rewrite H1, B, (IH H2). reflexivity.
Qed.
Lemma substituted_some w b s r : b <> "" -> substituted w b s r -> s <> "" -> r <> "".
Proof. intros B. destruct 1 as [s N|p r r' F S]; [auto|]. intros _. destruct p; [destruct b; [congruence|discriminate]|discriminate]. Qed.
Lemma abbreviated_plain l s r : Forall (fun e => plain_arg (snd e)) l -> abbreviated l s r -> plain_arg s -> plain_arg r.
Proof.
  intros F H. induction H as [s|w b l s s1 s2 S A IH]; [auto|]. inversion F as [|? ? F1 F2]; subst. intros (N & P). apply IH; [exact F2|]. destruct F1 as (B1 & B2). cbn [snd] in *. split.
  - eapply substituted_some; [exact B1|exact S|exact N].
  - eapply substituted_chars; [exact B2|exact S|exact P].
Qed.
Lemma table_plain k : Forall (fun e => plain_arg (snd e)) (firstn k abbreviation_table) /\ Forall (fun e => fst e <> "") abbreviation_table.
Proof.
  split.
  - apply Forall_forall. intros e I. assert (F : In e abbreviation_table) by (rewrite <- (firstn_skipn k abbreviation_table); apply in_or_app; left; exact I).
    assert (B : forallb (fun e : string * string => nonempty (snd e) && forall_char arg_char (snd e)) abbreviation_table = true) by (vm_compute; reflexivity).
    apply (proj1 (forallb_forall _ _) B) in F. apply andb_true_iff in F. destruct F as (F1 & F2). split; [|exact F2]. intros X. rewrite X in F1. discriminate F1.
  - assert (B : forallb (fun e : string * string => nonempty (fst e)) abbreviation_table = true) by (vm_compute; reflexivity).
    apply Forall_forall. intros e I. apply (proj1 (forallb_forall _ _) B) in I. intros X. rewrite X in I. discriminate I.
Qed.
Lemma fixed_name_plain name ab tr n : fix_term_length abbreviation_table name ab tr 24 = Ok n -> plain_arg name -> plain_arg n.
Proof.
  unfold fix_term_length. intros H P.
  assert (A : forall done m, (if ab then abbreviate_loop abbreviation_table 24 name else (false, name)) = (done, m) -> plain_arg m).
  { intros done m E. destruct ab; [|injection E as <- <-; exact P]. apply abbreviate_loop_spec in E; [|apply (table_plain 0)]. destruct E as (k & _ & A & _).
    eapply abbreviated_plain; [apply table_plain|exact A|exact P]. }
  destruct (if ab then _ else _) as (done, m) eqn:E. specialize (A done m eq_refl). destruct done; [apply ok_inj in H; subst; exact A|].
  destruct tr.
  - destruct (_ <=? _); [|discriminate H]. apply ok_inj in H. subst n. destruct (slice_to_prefix m 24) as (q & Q). destruct A as (A1 & A2). split.
    + destruct m as [|a m]; [congruence|]. intros X. unfold slice_to in X. cbn in X. discriminate X.
    + rewrite Q in A2. rewrite forall_char_app in A2. apply andb_true_iff in A2. apply A2.
  - destruct (_ <=? _); [|discriminate H]. apply ok_inj in H. subst n. exact A.
Qed.

(** ** Selection of terms *)

Lemma collapse_nil l : collapse_port_list l = [] <-> l = [].
Proof.
  split; [|intros ->; reflexivity]. intros E. destruct l as [|r l]; [reflexivity|exfalso].
  assert (X : fold_left collapse_port_step (py_sorted prange_leb (r :: l)) [] = []) by (unfold collapse_port_list in E; apply (f_equal (@rev prange)) in E; rewrite rev_involutive in E; exact E).
  assert (N : forall k st, fold_left collapse_port_step k st = [] -> k = [] /\ st = []).
  { induction k as [|a k IH]; intros st H; [auto|]. cbn [fold_left] in H. apply IH in H. destruct H as (_ & H). unfold collapse_port_step in H. exfalso. destruct st as [|(x, y) st]; [discriminate H|].
    destruct a. repeat match type of H with context [if ?b then _ else _] => destruct b end; discriminate H. }
  apply N in X. destruct X as (X & _). assert (I : In r (py_sorted prange_leb (r :: l))) by (apply py_sorted_in; left; reflexivity). rewrite X in I. destruct I.
Qed.
Lemma ports_match_collapse l n : ports_match (collapse_port_list l) n <-> ports_match l n.
Proof. unfold ports_match. rewrite collapse_ports_cover. rewrite collapse_nil. reflexivity. Qed.

Lemma ipt_select_spec c ab tr today : forall terms seen ts, Forall (fun t => in_force today t -> ipt_term_ok c t) terms -> ipt_select c ab tr today seen terms = Ok ts ->
  Forall (ipt_term_ok c) ts /\ NoDup (map t_name ts) /\ (forall t, In t ts -> ~ In (t_name t) seen) /\
  forall p o, first_says (fun t o => decided t p o) ts o <-> first_says (ipt_rule c today p) terms o.
Proof.
  induction terms as [|t rest IH]; intros seen ts F H.
  { apply ok_inj in H. subst. split; [constructor|]. split; [constructor|]. split; [intros t []|]. intros p o. split; intros X; apply first_says_nil in X; destruct X. }
  inversion F as [|? ? Ft Fr]; subst. cbn [ipt_select] in H.
  destruct (fix_term_length _ _ _ _ _) as [n|e] eqn:En; [|discriminate H]. cbn [bind] in H.
  destruct (str_in n seen) eqn:Sn; [discriminate H|].
  destruct (fix_high_ports _ _ _ _) as [t'|e] eqn:Eh; [|discriminate H]. cbn [bind] in H.
  pose proof (fix_high_ports_spec _ _ _ _ _ Eh) as S. cbv zeta in S. destruct S as (_ & _ & S).
  change (t_option (set_name n t)) with (t_option t) in S. change (t_protocol (set_name n t)) with (t_protocol t) in S. change (t_destination_port (set_name n t)) with (t_destination_port t) in S.
  set (q := if ic_state c then t_destination_port t else t_destination_port t ++ [(1024, 65535)]) in *.
  assert (Sh : t' = set_name n t /\ (~ wants_established t \/ ic_state c = true) \/
               wants_established t /\ (forall x, In x (t_protocol t) -> x = "tcp" \/ x = "udp") /\ t_protocol t <> [] /\ t' = set_destination_port (collapse_port_list q) (set_name n t)).
  { destruct S as [(S1 & S2)|[(_ & S1 & _ & S2)|(S1 & S3 & S2)]]; [left; auto|left; auto|right]. split; [exact S1|].
    destruct (t_protocol t) as [|x l]; cbn [some] in S3; [destruct (S3 "all" (or_introl eq_refl)) as [X|X]; discriminate X|]. split; [exact S3|]. split; [discriminate|exact S2]. }
  assert (Ee : t_expiration t' = t_expiration t) by (destruct Sh as [(-> & _)|(_ & _ & _ & ->)]; reflexivity).
  assert (Ea : t_action t' = t_action t) by (destruct Sh as [(-> & _)|(_ & _ & _ & ->)]; reflexivity).
  assert (Nm : t_name t' = n) by (destruct Sh as [(-> & _)|(_ & _ & _ & ->)]; reflexivity).
  assert (Em : forall p, term_matches t' p <-> ipt_matches c t p).
  { intros p. unfold ipt_matches, stateless_matches. destruct Sh as [(Et & N)|(Y & _ & _ & Et)].
    - rewrite Et. change (term_matches (set_name n t) p) with (term_matches t p). destruct (ic_state c); [reflexivity|]. destruct N as [N|N]; [tauto|discriminate N].
    - destruct (ic_state c) eqn:Es.
      + rewrite Et, term_matches_dport. unfold q. change (set_destination_port [] (set_name n t)) with (set_name n (set_destination_port [] t)).
        change (term_matches (set_name n (set_destination_port [] t)) p) with (term_matches (set_destination_port [] t) p).
        rewrite (ports_match_collapse (t_destination_port t)), <- term_matches_dport. reflexivity.
      + pose proof (fix_high_ports_matches _ _ _ _ Eh Y p) as X.
        change (term_matches (set_destination_port [] (set_name n t)) p) with (term_matches (set_destination_port [] t) p) in X.
        change (t_destination_port (set_name n t)) with (t_destination_port t) in X. rewrite X. tauto. }
  unfold expired in H. rewrite Ee in H.
  destruct (match t_expiration t with Some d => d <=? today | None => false end) eqn:Ex.
  { destruct (IH _ _ Fr H) as (I1 & I2 & I3 & I4). split; [exact I1|]. split; [exact I2|]. split; [intros x Ix X; apply (I3 x Ix); right; exact X|].
    intros p o. rewrite first_says_cons, I4.
    assert (N : forall o, ~ ipt_rule c today p t o).
    { intros o' (X & _). unfold in_force in X. destruct (t_expiration t) as [d|]; [|discriminate Ex]. specialize (X d eq_refl). lia. }
    split; [intros X; right; split; [exact X|]; intros a Y; destruct (N _ Y)|intros [X|(X & _)]; [destruct (N _ X)|exact X]]. }
  assert (Live : in_force today t) by (intros d E; rewrite E in Ex; lia).
  destruct (term_protocols _ _) as [ps|e]; [|discriminate H]. cbn [bind] in H.
  destruct (ipt_select c ab tr today (n :: seen) rest) as [ts'|e] eqn:Er; [|discriminate H]. cbn [bind] in H. apply ok_inj in H. subst ts.
  destruct (IH _ _ Fr Er) as (I1 & I2 & I3 & I4). pose proof (Ft Live) as K. split; [|split; [|split]].
  - constructor; [|exact I1]. destruct (it_names c t K) as (P1 & P2). pose proof (fixed_name_plain _ _ _ _ En P1) as Pn.
    destruct Sh as [(-> & _)|(Y & Yp & Yn & ->)].
    + destruct K. constructor; try assumption. split; assumption.
    + assert (Kp : forall r, In r (t_source_port t ++ collapse_port_list q) -> port_ok r /\ t_protocol t <> [] /\ forall x, In x (t_protocol t) -> In x ["tcp"; "udp"; "udplite"; "sctp"]).
      { intros r I. apply in_app_or in I. split; [|split; [exact Yn|intros x Ix; destruct (Yp x Ix) as [-> | ->]; cbn; auto]].
        destruct I as [I|I]; [apply (it_ports c t K), in_or_app; auto|].
        assert (B : forall x, In x q -> port_ok x).
        { intros x Ix. unfold q in Ix. destruct (ic_state c); [apply (it_ports c t K), in_or_app; auto|]. apply in_app_or in Ix. destruct Ix as [Ix|[<-|[]]]; [apply (it_ports c t K), in_or_app; auto|]. unfold port_ok. cbn [fst snd]. lia. }
        unfold port_ok. pose proof (collapse_ports_ends q r I) as ((a & Ia & E1) & (b & Ib & E2)).
        pose proof (B a Ia). pose proof (B b Ib). unfold port_ok in *.
        assert (O : forall x, In x q -> fst x <= snd x) by (intros x Ix; apply (B x Ix)).
        pose proof (proj1 (collapse_ports_ascending q O)) as W. apply (proj1 (Forall_forall _ _)) with (x := r) in W; [|exact I]. lia. }
      destruct K. constructor; try assumption. split; assumption.
  - cbn [map]. constructor; [|exact I2]. rewrite Nm. intros I. apply in_map_iff in I. destruct I as (x & E & I). apply (I3 x I). left. congruence.
  - intros x [<-|I]; [rewrite Nm; apply str_in_false, Sn|]. intros X. apply (I3 x I). right. exact X.
  - intros p o. rewrite !first_says_cons, I4.
    assert (Eq : forall o, decided t' p o <-> ipt_rule c today p t o).
    { intros o'. unfold decided, ipt_rule. rewrite Ea, Em. tauto. }
    rewrite Eq. split; (intros [X|(X & Y)]; [left; exact X|right; split; [exact X|intros a Z; apply Y, Eq, Z]]).
Qed.

(** ** The commands of a table *)

Definition reads (v : ver) (lines : list string) (cmds : list command) : Prop :=
  Forall2 (fun line c => has_char newline line = false /\ read_line v line = Some c) lines cmds.
Lemma reads_app v a b x y : reads v a x -> reads v b y -> reads v (a ++ b) (x ++ y).
Proof. apply Forall2_app. Qed.
Lemma reads_table v lines cmds : lines <> [] -> reads v lines cmds -> read_table v (join nl_text lines) = Some cmds.
Proof.
  intros N H. unfold read_table. change (join nl_text lines) with (join nl lines). rewrite split_join; [|exact N|].
  - clear N. induction H as [|l c lines cmds (_ & R) F IH]; [reflexivity|]. cbn [map all_some]. rewrite R, IH. reflexivity.
  - intros w I. destruct (Forall2_in_l _ _ _ _ H I) as (c & _ & X & _). exact X.
Qed.
(** A chain with its rules, called from its filter. *)
Definition jump_rule (chain : string) : rule := mkRule [] (Some chain).
Definition block_cmds (speedway : bool) (filter : string) (b : string * list rule) : list command :=
  NewChain (fst b) :: (if speedway then map (Rule (fst b)) (snd b) ++ [Rule filter (jump_rule (fst b))] else Rule filter (jump_rule (fst b)) :: map (Rule (fst b)) (snd b)).
Definition block_ok (c : ipt_cfg) (b : string * list rule) : Prop :=
  (exists n, fst b = chain_of c n) /\ forall r x, In r (snd b) -> r_target r = Some x -> x = "LOG" \/ In x verdicts.
Lemma reads_rules v chain lines rs : lines_read v chain lines rs -> reads v lines (map (Rule chain) rs).
Proof. induction 1 as [|l r lines rs (_ & N & R) F IH]; constructor; auto. Qed.
Lemma term_commands c t lines : ipt_term_ok c t -> ipt_term c t = Ok lines ->
  exists bs, reads (ic_ver c) lines (flat_map (block_cmds (ic_speedway c) (ic_filter c)) bs) /\ Forall (block_ok c) bs /\
    (map fst bs = [] \/ map fst bs = [chain_of c (t_name t)]) /\
    forall p, ipt_traffic c p -> (bs = [] -> forall o, ~ decided t p o) /\ forall b o, In b bs -> o <> "RETURN" -> first_says (rule_gives p) (snd b) o <-> decided t p o.
Proof.
  intros K H. destruct (term_shape c t lines K H) as [(-> & N)|(body & rs & -> & R & V & S)].
  - exists []. split; [constructor|]. split; [constructor|]. split; [left; reflexivity|]. intros p Tp. split; [intros _ o (M & _); exact (N p Tp M)|intros b o []].
  - exists [(chain_of c (t_name t), rs)]. split; [|split; [|split]].
    + destruct (it_names c t K) as (Nm & Nf). pose proof (chain_plain c (t_name t) Nm Nf) as Nc.
      destruct (new_chain_reads (ic_ver c) _ Nc) as (R1 & N1). destruct (jump_reads (ic_ver c) _ _ Nf Nc) as (_ & N2 & R2). fold (jump_line c t) in N2, R2.
      cbn [flat_map]. rewrite app_nil_r. unfold block_cmds. cbn [fst snd]. constructor; [split; [exact N1|exact R1]|]. destruct (ic_speedway c).
      * apply reads_app; [apply reads_rules, R|]. constructor; [split; [exact N2|exact R2]|constructor].
      * constructor; [split; [exact N2|exact R2]|apply reads_rules, R].
    + constructor; [|constructor]. split; [exists (t_name t); reflexivity|exact V].
    + right. reflexivity.
    + intros p Tp. split; [discriminate|]. intros b o [<-|[]] No. apply S; assumption.
Qed.
(** The blocks of the terms of a filter. *)
Definition blocks_say (c : ipt_cfg) (ts : list term) (bs : list (string * list rule)) : Prop :=
  forall p, ipt_traffic c p -> forall o, first_says (fun b o => first_says (rule_gives p) (snd b) o /\ o <> "RETURN") bs o <-> first_says (fun t o => decided t p o) ts o.
Lemma decided_return t p : ~ decided t p "RETURN".
Proof. intros (_ & a & r & _ & E). unfold ipt_verdict in E. repeat (destruct (String.eqb _ _); try discriminate E). Qed.
Lemma terms_commands c : forall ts bodies, Forall (ipt_term_ok c) ts -> mapM (ipt_term c) ts = Ok bodies ->
  exists bs, reads (ic_ver c) (concat bodies) (flat_map (block_cmds (ic_speedway c) (ic_filter c)) bs) /\ Forall (block_ok c) bs /\
    (exists names, incl names (map t_name ts) /\ map fst bs = map (chain_of c) names /\ (NoDup (map t_name ts) -> NoDup names)) /\ blocks_say c ts bs.
Proof.
  intros ts bodies F H. apply mapM_forall2 in H. induction H as [|t lines ts bodies E R IH].
  - exists []. split; [constructor|]. split; [constructor|]. split; [exists []; split; [intros x []|split; [reflexivity|intros _; constructor]]|].
    intros p _ o. split; intros X; apply first_says_nil in X; destruct X.
  - inversion F as [|? ? Ft Fr]; subst. destruct (IH Fr) as (bs & B1 & B2 & (names & N1 & N2 & N3) & B3).
    destruct (term_commands c t lines Ft E) as (b & C1 & C2 & C3 & C4). exists (b ++ bs). cbn [concat]. rewrite flat_map_app. split; [apply reads_app; assumption|].
    split; [apply Forall_app; split; assumption|]. split.
    + rewrite map_app, N2. destruct C3 as [-> | ->].
      * exists names. split; [intros x I; right; apply N1, I|]. split; [reflexivity|]. intros D. cbn [map] in D. inversion D; subst. auto.
      * exists (t_name t :: names). split; [intros x [<-|I]; [left; reflexivity|right; apply N1, I]|]. split; [reflexivity|]. intros D. cbn [map] in D. inversion D as [|? ? D1 D2]; subst.
        constructor; [intros I; apply D1, N1, I|auto].
    + intros p Tp o. destruct (C4 p Tp) as (D1 & D2). destruct b as [|b0 [|b1 b]].
      * cbn [app]. rewrite first_says_cons, (B3 p Tp). split; [intros X; right; split; [exact X|intros a Y; destruct (D1 eq_refl a Y)]|intros [X|(X & _)]; [destruct (D1 eq_refl o X)|exact X]].
      * cbn [app]. rewrite !first_says_cons, (B3 p Tp).
        assert (Eq : forall a, first_says (rule_gives p) (snd b0) a /\ a <> "RETURN" <-> decided t p a).
        { intros a. split; [intros (X & Y); apply (D2 b0 a (or_introl eq_refl) Y), X|]. intros X. assert (Y : a <> "RETURN") by (intros ->; exact (decided_return t p X)). split; [apply (D2 b0 a (or_introl eq_refl) Y), X|exact Y]. }
        rewrite Eq. split; (intros [X|(X & Y)]; [left; exact X|right; split; [exact X|intros a Z; apply Y, Eq, Z]]).
      * exfalso. destruct C3 as [C3|C3]; discriminate C3.
Qed.

(** ** Filters *)

Definition quiet (x : command) : Prop := match x with Rule _ _ => False | _ => True end.
(** A filter as commands: its name, what comes before its terms, and the blocks. *)
Record shape := mkShape { sh_name : string; sh_head : list command; sh_blocks : list (string * list rule) }.
Definition shape_cmds (speedway : bool) (s : shape) : list command := sh_head s ++ flat_map (block_cmds speedway (sh_name s)) (sh_blocks s).
Definition is_builtin (n : string) : bool := str_in n builtin_chains.
Definition head_ok (s : shape) : Prop :=
  Forall quiet (sh_head s) /\ (exists k, if is_builtin (sh_name s) then sh_head s = repeat Skip k \/ exists a, sh_head s = repeat Skip k ++ [Policy (sh_name s) a] else sh_head s = repeat Skip k ++ [NewChain (sh_name s)]).
Lemma comment_reads v s : has_char newline s = false -> has_char newline (append "# " s) = false /\ read_line v (append "# " s) = Some Skip.
Proof. intros H. split; [cbn [append has_char]; exact H|reflexivity]. Qed.
Lemma skips v lines : (forall l, In l lines -> has_char newline l = false /\ read_line v l = Some Skip) -> reads v lines (repeat Skip (List.length lines)).
Proof. induction lines as [|l lines IH]; intros H; cbn [List.length repeat]; constructor; [apply H; left; reflexivity|apply IH; intros x I; apply H; right; exact I]. Qed.
Lemma plain_no_newline s : plain_arg s -> has_char newline s = false.
Proof.
  intros (_ & P). induction s as [|c s IH]; [reflexivity|]. cbn [forall_char] in P. apply andb_true_iff in P. destruct P as (P1 & P2). cbn [has_char]. rewrite (IH P2), orb_false_r.
  destruct (Ascii.eqb c newline) eqn:E; [|reflexivity]. apply Ascii.eqb_eq in E. subst c. vm_compute in P1. discriminate P1.
Qed.
Lemma wrapped_no_newline l n line : In line (wrap_words l n nl_text) -> has_char newline line = false.
Proof.
  intros I. unfold wrap_words in I. apply in_flat_map in I. destruct I as (s & Is & I). apply in_map_iff in I. destruct I as (x & <- & I). apply filter_In in I. destruct I as (I & _).
  rewrite split_str_newline in I. apply piece_infix in I. destruct I as (C & Nx). eapply has_char_sub; [apply strip_contains|exact Nx].
Qed.
Definition default_ok (d : option string) : Prop := forall a, d = Some a -> a = "ACCEPT" \/ a = "DROP".
Lemma policy_reads v (speedway : bool) name a : plain_arg name -> a = "ACCEPT" \/ a = "DROP" ->
  let line := if speedway then append ":" (append name (append " " a)) else append "-P " (append name (append " " a)) in
  has_char newline line = false /\ read_line v line = Some (Policy name a).
Proof.
  intros P Ha line. assert (Pa : plain_arg a) by (destruct Ha as [-> | ->]; split; [discriminate|reflexivity|discriminate|reflexivity]). destruct speedway.
  - assert (W : words line [append ":" name; a]).
    { apply (words_cat (append ":" name) a [append ":" name] [a]); [|apply words_plain, Pa]. apply words_plain. destruct P as (P1 & P2). split; [discriminate|]. cbn [append forall_char]. rewrite P2. reflexivity. }
    split; [apply W|]. unfold read_line. assert (S0 : starts_with "#" line = false) by (unfold line; reflexivity). rewrite S0. destruct W as (_ & -> & _).
    assert (E1 : String.eqb (append ":" name) "-A" = false) by reflexivity. assert (E2 : String.eqb (append ":" name) "-N" = false) by reflexivity. assert (E3 : String.eqb (append ":" name) "-P" = false) by reflexivity.
    rewrite E1, E2, E3. assert (E4 : starts_with ":" (append ":" name) = true) by (destruct name; reflexivity). rewrite E4. reflexivity.
  - assert (W : words line ["-P"; name; a]).
    { apply (words_cat "-P" (append name (append " " a)) ["-P"] [name; a]); [apply (words_simple "-P"); reflexivity|]. apply (words_cat name a [name] [a]); apply words_plain; assumption. }
    split; [apply W|]. unfold read_line. assert (S0 : starts_with "#" line = false) by (unfold line; reflexivity). rewrite S0. destruct W as (_ & -> & _). reflexivity.
Qed.
Lemma filter_commands speedway f lines : ic_speedway (if_cfg f) = speedway -> ic_filter (if_cfg f) = ih_name (if_header f) -> plain_arg (ih_name (if_header f)) -> default_ok (if_default f) ->
  Forall (ipt_term_ok (if_cfg f)) (if_terms f) -> ipt_filter_lines speedway f = Ok lines ->
  exists s, sh_name s = ih_name (if_header f) /\ reads (ic_ver (if_cfg f)) lines (shape_cmds speedway s) /\ head_ok s /\ Forall (block_ok (if_cfg f)) (sh_blocks s) /\
    (exists names, incl names (map t_name (if_terms f)) /\ map fst (sh_blocks s) = map (chain_of (if_cfg f)) names /\ (NoDup (map t_name (if_terms f)) -> NoDup names)) /\
    blocks_say (if_cfg f) (if_terms f) (sh_blocks s) /\
    default_of (sh_name s) (sh_head s) = (if is_builtin (sh_name s) then match if_default f with Some a => Some a | None => if speedway then Some "DROP" else None end else None).
Proof.
  intros Esp Ef Pn Df F H. unfold ipt_filter_lines in H. cbv zeta in H. destruct (mapM _ _) as [bodies|e] eqn:Em; [|discriminate H]. cbn [bind] in H. apply ok_inj in H.
  destruct (terms_commands _ _ _ F Em) as (bs & B1 & B2 & B3 & B4). rewrite Esp, Ef in B1.
  set (v := ic_ver (if_cfg f)) in *. set (name := ih_name (if_header f)) in *.
  set (top := [append "# " (append (if speedway then "Speedway" else "Iptables") (append " " (append name " Policy")))]) in H.
  set (com := if match wrap_words (ih_comment (if_header f)) 70 nl_text with first :: _ => nonempty first | [] => false end then map (append "# ") (wrap_words (ih_comment (if_header f)) 70 nl_text) ++ ["#"] else []) in H.
  set (tags := add_repository_tags "# " true true true false) in H.
  assert (S1 : forall l, In l (top ++ com ++ tags ++ [append "# " (ipt_af v)]) -> has_char newline l = false /\ read_line v l = Some Skip).
  { intros l I. apply in_app_or in I. destruct I as [[<-|[]]|I].
    - apply comment_reads. rewrite !has_char_app, (plain_no_newline name Pn). destruct speedway; reflexivity.
    - apply in_app_or in I. destruct I as [I|I].
      + unfold com in I. destruct (match wrap_words _ _ _ with _ :: _ => _ | [] => _ end); [|destruct I]. apply in_app_or in I. destruct I as [I|[<-|[]]]; [|split; reflexivity].
        apply in_map_iff in I. destruct I as (x & <- & I). apply comment_reads. eapply wrapped_no_newline, I.
      + apply in_app_or in I. destruct I as [I|[<-|[]]]; [|apply comment_reads; destruct v; reflexivity].
        cbn in I. repeat destruct I as [<-|I]; try (split; reflexivity). destruct I. }
  apply skips in S1. set (k := List.length _) in S1.
  set (dl := if str_in name ["INPUT"; "OUTPUT"; "FORWARD"] then _ else _) in H.
  assert (S2 : exists hd, reads v dl hd /\ Forall quiet hd /\ (if is_builtin name then hd = [] \/ exists a, hd = [Policy name a] else hd = [NewChain name]) /\
     forall d, fold_left (fun d x => match x with Policy c a => if String.eqb c name then Some a else d | _ => d end) hd d =
       (if is_builtin name then match if_default f with Some a => Some a | None => if speedway then Some "DROP" else d end else d)).
  { unfold dl, is_builtin, builtin_chains. destruct (str_in name ["INPUT"; "OUTPUT"; "FORWARD"]) eqn:Eb.
    - destruct (if_default f) as [a|] eqn:Ed.
      + exists [Policy name a]. split; [constructor; [apply (policy_reads v speedway name a Pn (Df a eq_refl))|constructor]|]. split; [constructor; [exact I|constructor]|]. split; [right; exists a; reflexivity|].
        intros d. cbn [fold_left]. rewrite String.eqb_refl. reflexivity.
      + destruct speedway.
        * exists [Policy name "DROP"]. split; [constructor; [apply (policy_reads v true name "DROP" Pn (or_intror eq_refl))|constructor]|]. split; [constructor; [exact I|constructor]|]. split; [right; exists "DROP"; reflexivity|].
          intros d. cbn [fold_left]. rewrite String.eqb_refl. reflexivity.
        * exists []. split; [constructor|]. split; [constructor|]. split; [left; reflexivity|]. intros d. reflexivity.
    - exists [NewChain name]. destruct (new_chain_reads v name Pn) as (R1 & N1). split; [constructor; [split; assumption|constructor]|]. split; [constructor; [exact I|constructor]|]. split; [reflexivity|]. reflexivity. }
  destruct S2 as (hd & R2 & Q2 & H2 & D2).
  exists (mkShape name (repeat Skip k ++ hd) bs). cbn [sh_name sh_head sh_blocks]. split; [reflexivity|]. split; [|split; [|split; [|split; [|split]]]].
  - subst lines. unfold shape_cmds. cbn [sh_name sh_head sh_blocks].
    replace (top ++ com ++ tags ++ [append "# " (ipt_af v)] ++ dl ++ concat bodies) with ((top ++ com ++ tags ++ [append "# " (ipt_af v)]) ++ dl ++ concat bodies) by (rewrite <- !app_assoc; reflexivity).
    rewrite <- (app_assoc (repeat Skip k)). apply reads_app; [exact S1|]. apply reads_app; [exact R2|exact B1].
  - split.
    + cbn [sh_head]. apply Forall_app. split; [|exact Q2]. apply Forall_forall. intros x I. apply repeat_spec in I. subst x. exact Logic.I.
    + exists k. cbn [sh_name sh_head]. destruct (is_builtin name); [|rewrite H2; reflexivity]. destruct H2 as [-> |(a & ->)]; [left; apply app_nil_r|right; exists a; reflexivity].
  - exact B2.
  - exact B3.
  - exact B4.
  - unfold default_of. rewrite fold_left_app. rewrite D2.
    assert (E : fold_left (fun d x => match x with Policy c a => if String.eqb c name then Some a else d | _ => d end) (repeat Skip k) None = None) by (clear; induction k; [reflexivity|assumption]).
    rewrite E. reflexivity.
Qed.

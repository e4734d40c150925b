(** Terms as iptables chains. *)
From Coq Require Import Lia ZifyBool ZifyNat.
From Verif Require Import SpecIptables BaseFacts PyStrFacts TextProofs GenProofs GenProofs2 CiscoProofs CiscoProofs2 CiscoTerm CiscoAcl WrapProofs JuniperTerm
  IptText IPFacts PolicyProofs IptProofs IptLine IptPart IptCombo IptAddr.
Local Open Scope string_scope.
Local Open Scope list_scope.
Local Open Scope Z_scope.

(** ** Comments *)

Lemma wrap_find_sub n fuel : forall prev rest ch, In ch (wrap_find fuel n prev rest) -> incl ch rest.
Proof.
  induction fuel as [|fuel IH]; intros prev rest ch I; [destruct I|]. destruct rest as [|c tl]; [destruct I|]. cbn [wrap_find] in I.
  destruct (wrap_match n prev (c :: tl)) as [|k].
  - apply IH in I. intros x J. right. apply I, J.
  - destruct I as [<-|I].
    + intros x J. rewrite <- (firstn_skipn (S k) (c :: tl)). apply in_or_app. auto.
    + apply IH in I. intros x J. rewrite <- (firstn_skipn (S k) (c :: tl)). apply in_or_app. right. apply I, J.
Qed.
Lemma has_char_in d s : has_char d s = true <-> In d (list_ascii_of_string s).
Proof.
  induction s as [|c s IH]; cbn [has_char list_ascii_of_string In]; [split; [discriminate|intros []]|]. rewrite orb_true_iff, IH, Ascii.eqb_eq. reflexivity.
Qed.
Lemma has_char_sub d s t : contains s t -> has_char d s = false -> has_char d t = false.
Proof. intros C H. destruct (has_char d t) eqn:E; [|reflexivity]. rewrite (contains_char d s t C E) in H. discriminate H. Qed.
Lemma wrap_text_no d n s : d <> newline -> has_char d s = false -> has_char d (wrap_text n nl_text s) = false.
Proof.
  intros N H. unfold wrap_text. destruct (n <? String.length s)%nat; [|exact H]. destruct (has_char d (join nl_text _)) eqn:E; [|reflexivity]. exfalso.
  assert (F : forall_char (fun c => negb (Ascii.eqb c d)) (join nl_text (map string_of_list_ascii (wrap_find (String.length s) n [] (list_ascii_of_string s)))) = true).
  { apply forall_char_join; [cbn [forall_char nl_text]; apply andb_true_iff; split; [|reflexivity]; apply negb_true_iff, Ascii.eqb_neq; congruence|].
    intros x I. apply in_map_iff in I. destruct I as (ch & <- & I). apply wrap_find_sub in I. clear -I H.
    induction ch as [|a ch IH]; [reflexivity|]. cbn [string_of_list_ascii forall_char]. apply andb_true_iff. split; [|apply IH; intros y J; apply I; right; exact J].
    apply negb_true_iff, Ascii.eqb_neq. intros ->. assert (X : has_char d s = true) by (apply has_char_in, I; left; reflexivity). congruence. }
  apply (forall_char_has _ _ d) in F; [congruence|]. rewrite Ascii.eqb_refl. reflexivity.
Qed.
Lemma strip_contains s : contains s (strip s).
Proof. destruct (strip_infix s) as (a & b & E). exists a, b. exact E. Qed.
Lemma wrap_words_no l n d line : d <> newline -> (forall s, In s l -> has_char d s = false) -> In line (wrap_words l n nl_text) -> has_char newline line = false /\ has_char d line = false.
Proof.
  intros N H I. unfold wrap_words in I. apply in_flat_map in I. destruct I as (s & Is & I). apply in_map_iff in I. destruct I as (x & <- & I). apply filter_In in I. destruct I as (I & _).
  rewrite split_str_newline in I. apply piece_infix in I. destruct I as (C & Nx). split.
  - eapply has_char_sub; [apply strip_contains|exact Nx].
  - eapply has_char_sub; [apply strip_contains|]. eapply has_char_sub; [exact C|]. eapply has_char_sub; [apply strip_contains|]. apply wrap_text_no; [exact N|apply H, Is].
Qed.
Lemma unquote_inside s : has_char "\" s = false -> has_char newline s = false -> inside (unquote s) = true.
Proof.
  intros B N. unfold inside, unquote. induction s as [|c s IH]; [reflexivity|]. cbn [has_char] in B, N. apply orb_false_iff in B, N. destruct B as (B1 & B2). destruct N as (N1 & N2).
  cbn [list_ascii_of_string filter]. destruct (Ascii.eqb c dquote) eqn:E; cbn [negb]; [apply IH; assumption|]. cbn [string_of_list_ascii forall_char].
  rewrite E, B1, N1. apply IH; assumption.
Qed.
Definition silent (T : packet -> Prop) (v : ver) (chain : string) (lines : list string) : Prop :=
  exists l, lines_say T v chain lines l /\ forall c t, In (c, t) l -> t = None.
Lemma comment_line T v chain s : plain_arg chain -> inside s = true ->
  line_says T v chain (append "-A " (append chain (append " -m comment --comment " (append (String dquote "") (append s (String dquote "")))))) (fun _ => True, None).
Proof.
  intros P Q.
  assert (W : words (append "-A " (append chain (append " -m comment --comment " (append (String dquote "") (append s (String dquote "")))))) ["-A"; chain; "-m"; "comment"; "--comment"; s]).
  { change ["-A"; chain; "-m"; "comment"; "--comment"; s] with (["-A"; chain] ++ ["-m"; "comment"; "--comment"] ++ [s]).
    replace (append "-A " (append chain (append " -m comment --comment " (append (String dquote "") (append s (String dquote ""))))))
      with (("-A " ++ chain) ++ String " " ("-m comment --comment" ++ String " " (String dquote (s ++ String dquote ""))))%string by (rewrite str_app_assoc; reflexivity).
    apply words_cat; [apply append_words, P|]. apply words_cat; [apply lit_words; reflexivity|apply words_quoted, Q]. }
  split; [discriminate|]. split; [apply W|]. exists (mkRule [fun _ => True] None). split; [eapply rule_words; [exact W|reflexivity|reflexivity]|]. split; [reflexivity|].
  intros p _. cbn [fst]. split; [auto|]. intros _. constructor; [exact I|constructor].
Qed.
Lemma comments_silent T c t : plain_arg (chain_of c (t_name t)) -> (forall s, In s (t_comment t) \/ t_owner t = Some s -> has_char "\" s = false) ->
  silent T (ic_ver c) (chain_of c (t_name t)) (ipt_comments c t).
Proof.
  intros P H. unfold ipt_comments. destruct (ic_verbose c); [|exists []; split; [constructor|intros ? ? []]]. cbv zeta.
  set (comments := t_comment t ++ _). set (width := Z.to_nat _).
  assert (Hc : forall s, In s comments -> has_char "\" s = false).
  { intros s I. unfold comments in I. apply in_app_or in I. destruct I as [I|I]; [apply H; left; exact I|].
    destruct (t_owner t) as [o|] eqn:Eo; [|destruct I]. destruct (given (Some o)); [|destruct I]. destruct I as [<-|[]].
    rewrite has_char_app, (H o) by (right; reflexivity). reflexivity. }
  assert (Hw : forall line, In line (wrap_words comments width nl_text) -> inside (unquote line) = true).
  { intros line I. destruct (wrap_words_no comments width "\"%char line) as (A & B); [discriminate|exact Hc|exact I|]. apply unquote_inside; assumption. }
  destruct (wrap_words comments width nl_text) as [|first rest] eqn:Ew; [exists []; split; [constructor|intros ? ? []]|].
  destruct (nonempty first); [|exists []; split; [constructor|intros ? ? []]]. rewrite <- Ew in *. clear Ew first rest.
  induction (wrap_words comments width nl_text) as [|line ls IH]; [exists []; split; [constructor|intros ? ? []]|].
  destruct IH as (l & L1 & L2); [intros x I; apply Hw; right; exact I|]. cbn [flat_map]. destruct (nonempty line); [|exists l; auto].
  exists ((fun _ => True, None) :: l). split.
  - cbn [app]. constructor; [|exact L1]. apply comment_line; [exact P|apply Hw; left; reflexivity].
  - intros x y [E|I]; [injection E as _ <-; reflexivity|eapply L2, I].
Qed.

(** ** Options *)

Definition option_names : list string := "sample" :: "first-fragment" :: established_names ++ initial_names ++ flag_options.
Definition is_est (o : string) : bool := str_in o established_names.
Definition is_initial (o : string) : bool := str_in o initial_names.
Definition flag_table : list (string * string) :=
  [("syn", "SYN"); ("ack", "ACK"); ("fin", "FIN"); ("rst", "RST"); ("urg", "URG"); ("psh", "PSH"); ("all", "ALL")].
Definition opt_flags (o : string) : list string := match assoc o flag_table with Some g => [g] | None => [] end.
Definition opt_texts (c : ipt_cfg) (o : string) : list string :=
  if is_est o then if ic_state c then [state_est] else [] else match assoc o ipt_matchers with Some m => [m] | None => [] end.
Definition option_texts : list string := [state_est; "-m u32 --u32 4&0x3FFF=0x2000"; "--syn"; ""].
Lemma texts_known c o x : In x (opt_texts c o) -> In x option_texts.
Proof.
  unfold opt_texts. destruct (is_est o); [destruct (ic_state c); [intros [<-|[]]; left; reflexivity|intros []]|].
  unfold ipt_matchers. cbn [assoc]. repeat (destruct (String.eqb _ _); [intros [<-|[]]; cbn; auto|]). intros [].
Qed.
Lemma not_established O : (forall x, In x O -> In x option_texts) -> str_in "ESTABLISHED" (map strip O) = false.
Proof.
  intros H. apply str_in_false. intros I. apply in_map_iff in I. destruct I as (x & E & I). apply H in I. cbn in I. repeat destruct I as [<-|I]; try discriminate E. destruct I.
Qed.
Lemma flags_match_option o : In o option_names ->
  flat_map (fun e => if starts_with (fst e) o then [snd e] else []) ipt_flags_table = opt_flags o.
Proof. intros I. cbn in I. repeat destruct I as [<-|I]; try (vm_compute; reflexivity). destruct I. Qed.
Lemma est_match_option o : In o option_names -> starts_with "established" o || starts_with "tcp-established" o = is_est o /\
  (is_est o = true -> assoc o ipt_matchers = None).
Proof. intros I. cbn in I. repeat destruct I as [<-|I]; try (split; [reflexivity|vm_compute; first [reflexivity|discriminate|auto]]). destruct I. Qed.
Lemma options_spec c protocol : forall opts O F tr r, (forall o, In o opts -> In o option_names) -> (forall x, In x O -> In x option_texts) ->
  ipt_options c protocol opts (O, F, tr) = Ok r ->
  r = (O ++ flat_map (opt_texts c) opts, F ++ flat_map opt_flags opts, tr || (negb (ic_state c) && list_str_eqb protocol ["tcp"] && existsb is_est opts)).
Proof.
  induction opts as [|o opts IH]; intros O F tr r Ho HO H.
  - apply ok_inj in H. subst r. cbn [flat_map existsb]. rewrite !app_nil_r, andb_false_r, orb_false_r. reflexivity.
  - cbn [ipt_options] in H. pose proof (Ho o (or_introl eq_refl)) as Io. destruct (est_match_option o Io) as (Ee & Em). rewrite Ee in H.
    rewrite (not_established O HO) in H. cbn [negb] in H. rewrite andb_true_r in H. rewrite (flags_match_option o Io) in H.
    assert (Next : forall O1 t1, O1 = opt_texts c o -> t1 = negb (ic_state c) && list_str_eqb protocol ["tcp"] && is_est o ->
      ipt_options c protocol opts (O ++ O1, F ++ opt_flags o, tr || t1) = Ok r ->
      r = (O ++ flat_map (opt_texts c) (o :: opts), F ++ flat_map opt_flags (o :: opts), tr || (negb (ic_state c) && list_str_eqb protocol ["tcp"] && existsb is_est (o :: opts)))).
    { intros O1 t1 -> -> E. apply IH in E.
      - rewrite E. cbn [flat_map existsb]. rewrite !app_assoc. f_equal. rewrite <- orb_assoc. f_equal. rewrite andb_orb_distrib_r. reflexivity.
      - intros x I. apply Ho. right. exact I.
      - intros x I. apply in_app_or in I. destruct I as [I|I]; [apply HO, I|eapply texts_known, I]. }
    match goal with |- ?G => set (Goal := G) in * end. destruct (is_est o) eqn:Eo.
    + rewrite (Em eq_refl) in H. destruct (starts_with "tcp-established" o && negb (list_str_eqb protocol ["tcp"])); [discriminate H|].
      destruct (ic_state c) eqn:Es; cbn [bind] in H.
      * apply (Next [state_est] false); [unfold opt_texts; rewrite Eo, Es; reflexivity|reflexivity|]. rewrite orb_false_r. exact H.
      * apply (Next [] (list_str_eqb protocol ["tcp"])); [unfold opt_texts; rewrite Eo, Es; reflexivity|cbn [negb andb]; rewrite andb_true_r; reflexivity|].
        rewrite app_nil_r. exact H.
    + cbn [bind] in H. destruct (assoc o ipt_matchers) as [m|] eqn:Ea.
      * apply (Next [m] false); [unfold opt_texts; rewrite Eo, Ea; reflexivity|rewrite andb_false_r; reflexivity|]. rewrite orb_false_r. exact H.
      * apply (Next [] false); [unfold opt_texts; rewrite Eo, Ea; reflexivity|rewrite andb_false_r; reflexivity|]. rewrite orb_false_r, app_nil_r. exact H.
Qed.
(** What the texts of an option ask. *)
Definition opt_cond (c : ipt_cfg) (o : string) (p : packet) : Prop :=
  (is_est o = true -> ic_state c = true -> p_option p o) /\ (is_initial o = true -> p_option p o) /\ (o = "first-fragment" -> p_option p o).
Lemma one_option_says c o : In o option_names -> (o = "first-fragment" -> ic_ver c = V4) ->
  opts_say (ipt_traffic c) (ic_ver c) (opt_texts c o) (opt_cond c o) (is_initial o).
Proof.
  intros I V. cbn [In option_names established_names initial_names flag_options tcp_flags map snd tcp_flag_names app] in I.
  assert (Free : forall s cond, free (ipt_traffic c) (ic_ver c) s cond -> (forall p, ipt_traffic c p -> cond p <-> opt_cond c o p) -> opts_say (ipt_traffic c) (ic_ver c) [s] (opt_cond c o) false).
  { intros s cond F E. eapply opts_iff; [exact E|apply opts_free, F]. }
  assert (Nil : (forall p, ipt_traffic c p -> opt_cond c o p) -> opts_say (ipt_traffic c) (ic_ver c) [] (opt_cond c o) false).
  { intros E. eapply opts_iff; [|apply opts_nil]. intros p Tp. split; [intros _; apply E, Tp|auto]. }
  repeat destruct I as [<-|I]; try destruct I; unfold opt_texts;
    match goal with |- context [is_est ?x] => let b := eval vm_compute in (is_est x) in change (is_est x) with b | _ => idtac end;
    match goal with |- context [is_initial ?x] => let b := eval vm_compute in (is_initial x) in change (is_initial x) with b | _ => idtac end; cbv iota.
  - (* sample *) apply (Free "" (fun _ => True)); [apply free_nil|]. intros p _. unfold opt_cond. cbn. intuition discriminate.
  - (* first-fragment *) rewrite (V eq_refl). eapply opts_iff; [|apply opts_free, free_first]. intros p _. unfold opt_cond. cbn. intuition discriminate.
  - (* established *) destruct (ic_state c) eqn:Es.
    + apply (Free state_est (fun p => p_option p "established")); [apply free_est|]. intros p _. unfold opt_cond. rewrite Es. cbn. intuition discriminate.
    + apply Nil. intros p _. unfold opt_cond. rewrite Es. cbn. intuition discriminate.
  - destruct (ic_state c) eqn:Es.
    + apply (Free state_est (fun p => p_option p "established")); [apply free_est|]. intros p Tp. unfold opt_cond. rewrite Es. unfold ipt_traffic in Tp.
      assert (X : p_option p "tcp-established" <-> p_option p "established") by tauto. cbn. intuition discriminate.
    + apply Nil. intros p _. unfold opt_cond. rewrite Es. cbn. intuition discriminate.
  - (* initial *) eapply opts_iff; [|apply opts_syn]. intros p Tp. unfold ipt_traffic in Tp. assert (X : p_option p "initial" <-> syn_only p) by tauto. rewrite <- X. unfold opt_cond. cbn. intuition discriminate.
  - eapply opts_iff; [|apply opts_syn]. intros p Tp. unfold ipt_traffic in Tp. assert (X : p_option p "tcp-initial" <-> syn_only p) by tauto. rewrite <- X. unfold opt_cond. cbn. intuition discriminate.
  - apply Nil. intros p _. unfold opt_cond. cbn. intuition discriminate.
  - apply Nil. intros p _. unfold opt_cond. cbn. intuition discriminate.
  - apply Nil. intros p _. unfold opt_cond. cbn. intuition discriminate.
  - apply Nil. intros p _. unfold opt_cond. cbn. intuition discriminate.
  - apply Nil. intros p _. unfold opt_cond. cbn. intuition discriminate.
  - apply Nil. intros p _. unfold opt_cond. cbn. intuition discriminate.
  - apply Nil. intros p _. unfold opt_cond. cbn. intuition discriminate.
Qed.
Lemma options_say_all c opts : (forall o, In o opts -> In o option_names /\ (o = "first-fragment" -> ic_ver c = V4)) ->
  (List.length (filter is_initial opts) <= 1)%nat ->
  opts_say (ipt_traffic c) (ic_ver c) (flat_map (opt_texts c) opts) (fun p => forall o, In o opts -> opt_cond c o p) (existsb is_initial opts).
Proof.
  induction opts as [|o opts IH]; intros H L.
  - eapply opts_iff; [|apply opts_nil]. intros p _. split; [intros _ o []|auto].
  - cbn [flat_map existsb]. destruct (H o (or_introl eq_refl)) as (Io & Vo).
    eapply opts_iff; [|apply opts_app; [apply one_option_says; [exact Io|exact Vo]|apply IH|]].
    + intros p _. cbn beta. split; [intros (A & B) x [<-|I]; auto|intros A; split; [apply A; left; reflexivity|intros x I; apply A; right; exact I]].
    + intros x I. apply H. right. exact I.
    + cbn [filter] in L. destruct (is_initial o); cbn in L; lia.
    + cbn [filter] in L. destruct (is_initial o); [|reflexivity]. cbn [andb]. cbn [List.length] in L. assert (E : filter is_initial opts = []) by (destruct (filter is_initial opts); [reflexivity|cbn in L; lia]).
      clear -E. induction opts as [|x opts IH]; [reflexivity|]. cbn [filter existsb] in *. destruct (is_initial x); [discriminate E|apply IH, E].
Qed.
Definition flags_set (F : list string) (p : packet) : Prop := forall f, In f tcp_flags -> meanings F f -> p_option p f.
Lemma flags_set_app a b p : flags_set (a ++ b) p <-> flags_set a p /\ flags_set b p.
Proof.
  unfold flags_set, meanings. split.
  - intros H. split; intros f I (g & G & M); apply (H f I); exists g; (split; [apply in_or_app; auto|exact M]).
  - intros (A & B) f I (g & G & M). apply in_app_or in G. destruct G as [G|G]; [apply (A f I)|apply (B f I)]; exists g; auto.
Qed.
Lemma one_flag c o p : ipt_traffic c p -> In o option_names -> flags_set (opt_flags o) p <-> (In o flag_options -> p_option p o).
Proof.
  intros Tp I. unfold ipt_traffic in Tp. assert (Al : p_option p "all" <-> forall f, In f tcp_flags -> p_option p f) by tauto. clear Tp.
  assert (Nil : flags_set [] p) by (intros f _ (g & [] & _)).
  assert (One : forall g f, flag_meaning g = [f] -> In f tcp_flags -> flags_set [g] p <-> p_option p f).
  { intros g f E If. unfold flags_set, meanings. split.
    - intros H. apply (H f If). exists g. rewrite E. split; left; reflexivity.
    - intros H x _ (y & [<-|[]] & M). rewrite E in M. destruct M as [<-|[]]. exact H. }
  cbn [In option_names established_names initial_names flag_options tcp_flags map snd tcp_flag_names app] in I.
  repeat destruct I as [<-|I]; try destruct I;
    try (split; [intros _ X; exfalso; cbn in X; intuition discriminate|intros _; exact Nil]).
  - change (opt_flags "all") with ["ALL"]. rewrite Al. split.
    + intros H _ f If. apply (H f If). exists "ALL". split; [left; reflexivity|exact If].
    + intros H f If _. apply H; [left; reflexivity|exact If].
  - change (opt_flags "fin") with ["FIN"]. rewrite (One "FIN" "fin") by (try reflexivity; cbn; auto 10). split; [auto|intros H; apply H; cbn; auto 10].
  - change (opt_flags "syn") with ["SYN"]. rewrite (One "SYN" "syn") by (try reflexivity; cbn; auto 10). split; [auto|intros H; apply H; cbn; auto 10].
  - change (opt_flags "rst") with ["RST"]. rewrite (One "RST" "rst") by (try reflexivity; cbn; auto 10). split; [auto|intros H; apply H; cbn; auto 10].
  - change (opt_flags "psh") with ["PSH"]. rewrite (One "PSH" "psh") by (try reflexivity; cbn; auto 10). split; [auto|intros H; apply H; cbn; auto 10].
  - change (opt_flags "ack") with ["ACK"]. rewrite (One "ACK" "ack") by (try reflexivity; cbn; auto 10). split; [auto|intros H; apply H; cbn; auto 10].
  - change (opt_flags "urg") with ["URG"]. rewrite (One "URG" "urg") by (try reflexivity; cbn; auto 10). split; [auto|intros H; apply H; cbn; auto 10].
Qed.
Lemma all_flags c opts p : ipt_traffic c p -> (forall o, In o opts -> In o option_names) -> flags_set (flat_map opt_flags opts) p <-> forall o, In o opts -> In o flag_options -> p_option p o.
Proof.
  intros Tp. induction opts as [|o opts IH]; intros H.
  - split; [intros _ o []|intros _ f _ (g & [] & _)].
  - cbn [flat_map]. rewrite flags_set_app, (one_flag c o p Tp) by (apply H; left; reflexivity). rewrite IH by (intros x I; apply H; right; exact I). split.
    + intros (A & B) x [<-|I]; auto.
    + intros A. split; [apply A; left; reflexivity|intros x I; apply A; right; exact I].
Qed.
Definition tracked (c : ipt_cfg) (protocol opts : list string) : bool := negb (ic_state c) && list_str_eqb protocol ["tcp"] && existsb is_est opts.
Lemma options_meaning c protocol opts p : ipt_traffic c p -> (forall o, In o opts -> In o option_names) ->
  (forall o, In o opts -> is_est o = true -> ic_state c = true \/ protocol = ["tcp"]) ->
  (forall o, In o opts -> p_option p o) <->
  (forall o, In o opts -> opt_cond c o p) /\ flags_set (flat_map opt_flags opts) p /\ (tracked c protocol opts = true -> p_option p "established").
Proof.
  intros Tp H E. rewrite (all_flags c opts p Tp H). unfold tracked, opt_cond. unfold ipt_traffic in Tp.
  assert (Te : p_option p "tcp-established" <-> p_option p "established") by tauto. assert (Sa : p_option p "sample") by tauto. clear Tp. split.
  - intros A. split; [intros o I; auto|]. split; [auto|]. intros X. rewrite !andb_true_iff in X. destruct X as (_ & X). apply existsb_exists in X. destruct X as (o & I & X).
    apply str_in_iff in X. specialize (A o I). destruct X as [<-|[<-|[]]]; [exact A|apply Te, A].
  - intros (A & B & C) o I. specialize (A o I). destruct A as (A1 & A2 & A3). specialize (B o I). pose proof (H o I) as Ho. specialize (E o I).
    destruct (is_est o) eqn:Ee.
    + destruct (ic_state c) eqn:Es; [auto|]. assert (X : p_option p "established").
      { apply C. cbn [negb andb]. apply andb_true_iff. split.
        - destruct (E eq_refl) as [X| ->]; [discriminate X|reflexivity].
        - apply existsb_exists. exists o. auto. }
      apply str_in_iff in Ee. destruct Ee as [<-|[<-|[]]]; [exact X|apply Te, X].
    + destruct (is_initial o) eqn:Ei; [auto|].
      unfold option_names in Ho. destruct Ho as [<-|[<-|Ho]]; [exact Sa|auto|]. apply in_app_or in Ho. destruct Ho as [Ho|Ho]; [apply str_in_iff in Ho; unfold is_est in Ee; congruence|].
      apply in_app_or in Ho. destruct Ho as [Ho|Ho]; [apply str_in_iff in Ho; unfold is_initial in Ei; congruence|]. auto.
Qed.
(** The flags of the combinations. *)
Lemma flags_equal F p : (some F || false = true -> forall f, In f tcp_flags -> (meanings (F ++ []) f /\ p_option p f <-> meanings (F ++ []) f)) <-> flags_set F p.
Proof.
  rewrite app_nil_r, orb_false_r. unfold flags_set. split.
  - intros H f I M. assert (S : some F = true) by (destruct M as (g & G & _); destruct F; [destruct G|reflexivity]). apply (proj2 (H S f I) M).
  - intros H _ f I. split; [tauto|]. intros M. split; [exact M|apply H; assumption].
Qed.
Lemma meanings_ack f : meanings ["ACK"] f <-> f = "ack".
Proof. unfold meanings. split; [intros (g & [<-|[]] & [<-|[]]); reflexivity|intros ->; exists "ACK"; split; left; reflexivity]. Qed.
Lemma meanings_rst f : meanings ["RST"] f <-> f = "rst".
Proof. unfold meanings. split; [intros (g & [<-|[]] & [<-|[]]); reflexivity|intros ->; exists "RST"; split; left; reflexivity]. Qed.
Lemma meanings_mask f : meanings ["SYN"; "FIN"; "ACK"; "RST"] f <-> In f ["syn"; "fin"; "ack"; "rst"].
Proof.
  unfold meanings. split.
  - intros (g & [<-|[<-|[<-|[<-|[]]]]] & [<-|[]]); cbn; auto.
  - intros [<-|[<-|[<-|[<-|[]]]]]; [exists "SYN"|exists "FIN"|exists "ACK"|exists "RST"]; (split; [cbn; auto|left; reflexivity]).
Qed.
Lemma track_meaning c p : ipt_traffic c p -> ic_state c = false ->
  (exists tr, In tr ipt_track /\ forall f, In f tcp_flags -> (meanings ([] ++ fst tr) f /\ p_option p f <-> meanings ([] ++ snd tr) f)) <-> p_option p "established".
Proof.
  intros Tp Es. unfold ipt_traffic in Tp.
  assert (E : p_option p "established" <-> p_option p "ack" \/ (p_option p "rst" /\ ~ p_option p "syn" /\ ~ p_option p "fin" /\ ~ p_option p "ack")) by tauto.
  clear Tp. rewrite E. split.
  - intros (tr & [<-|[<-|[]]] & H); cbn [fst snd app] in H.
    + left. specialize (H "ack" ltac:(cbn; auto 10)). rewrite meanings_ack in H. tauto.
    + right. assert (R := H "rst" ltac:(cbn; auto 10)). assert (S := H "syn" ltac:(cbn; auto 10)). assert (Fi := H "fin" ltac:(cbn; auto 10)). assert (A := H "ack" ltac:(cbn; auto 10)).
      rewrite meanings_mask, meanings_rst in R, S, Fi, A. split; [exact (proj2 (proj2 R eq_refl))|]. repeat split; intros X.
      * assert (Y : "syn" = "rst") by (apply S; split; [cbn; auto|exact X]). discriminate Y.
      * assert (Y : "fin" = "rst") by (apply Fi; split; [cbn; auto|exact X]). discriminate Y.
      * assert (Y : "ack" = "rst") by (apply A; split; [cbn; auto|exact X]). discriminate Y.
  - intros [A|(R & S & Fi & A)].
    + exists (["ACK"], ["ACK"]). split; [left; reflexivity|]. intros f _. cbn [fst snd app]. rewrite meanings_ack. split; [tauto|intros ->; auto].
    + exists (["SYN"; "FIN"; "ACK"; "RST"], ["RST"]). split; [right; left; reflexivity|]. intros f _. cbn [fst snd app]. rewrite meanings_mask, meanings_rst. cbn [In]. split.
      * intros ([<-|[<-|[<-|[<-|[]]]]] & X); tauto.
      * intros ->. auto 10.
Qed.

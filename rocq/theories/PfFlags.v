(** Packet Filter: flags, addresses, families and the terms. *)
From Coq Require Import Lia ZifyBool ZifyNat.
From Verif Require Import SpecPf BaseFacts IPFacts PyStrFacts TextProofs PolicyProofs GenProofs GenProofs2 CiscoProofs CiscoProofs2 GceProofs SrxBook PfText PfRule PfMatch.
Local Open Scope string_scope.
Local Open Scope list_scope.
Local Open Scope Z_scope.

(** ** Flags *)
Definition option_names : list string := ["established"; "tcp-established"; "syn"; "ack"; "fin"; "rst"; "urg"; "psh"; "all"].
Definition is_est (o : string) : bool := str_in o ["established"; "tcp-established"].
Definition letters (o : string) : list string := if is_est o then ["A"] else pf_option_flags [o].
Lemma option_flags_in opts f : In f (pf_option_flags opts) <-> exists o, In o opts /\ In f (pf_option_flags [o]).
Proof.
  unfold pf_option_flags. rewrite in_flat_map. split; intros (o & I & J); exists o; (split; [exact I|]); cbn [flat_map] in *; [apply in_or_app; left; exact J|].
  apply in_app_or in J. destruct J as [J|[]]. exact J.
Qed.
Lemma est_none o : is_est o = true -> pf_option_flags [o] = [].
Proof. intros E. apply str_in_spec in E. destruct E as [<-|[<-|[]]]; reflexivity. Qed.
Lemma flag_some o : In o option_names -> is_est o = false -> pf_option_flags [o] <> [].
Proof. intros I E. repeat (destruct I as [<-|I]; [try discriminate E; discriminate|]). destruct I. Qed.
Lemma established_spec flags opts r : pf_established ["tcp"] flags opts = Ok r ->
  (r = flags /\ forall o, In o opts -> is_est o = false) \/ (r = ["A"] /\ flags = [] /\ exists o, In o opts /\ is_est o = true).
Proof.
  revert flags. induction opts as [|o opts IH]; intros flags H; [apply ok_inj in H; left; split; [auto|intros o []]|].
  cbn [pf_established] in H. fold (is_est o) in H. destruct (is_est o) eqn:E.
  - destruct (some flags) eqn:S; [discriminate H|]. assert (F : flags = []) by (destruct flags; [reflexivity|discriminate S]).
    change (negb (some ["tcp"]) || str_in "tcp" ["tcp"]) with true in H. cbv iota in H. apply IH in H. right.
    destruct H as [(-> & _)|(_ & X & _)]; [|discriminate X]. split; [reflexivity|]. split; [exact F|]. exists o. split; [left; reflexivity|exact E].
  - apply IH in H. destruct H as [(-> & H)|(-> & F & o' & I & E')]; [left|right].
    + split; [reflexivity|]. intros x [<-|I]; [exact E|exact (H x I)].
    + split; [reflexivity|]. split; [exact F|]. exists o'. split; [right; exact I|exact E'].
Qed.
Lemma established_nil ps r : pf_established ps [] [] = Ok r -> r = [].
Proof. intros H. apply ok_inj in H. auto. Qed.
Lemma flags_spec stateful ps opts fl : (forall o, In o opts -> In o option_names) -> (opts <> [] -> ps = ["tcp"]) -> pf_flags stateful ps opts = Ok fl ->
  (opts = [] /\ fl = (if (negb (some ps) || list_str_eqb ps ["tcp"]) && stateful then (["S"], ["S"; "A"]) else ([], []))) \/
  (opts <> [] /\ fst fl = snd fl /\ fst fl <> [] /\ forall f, In f (fst fl) <-> exists o, In o opts /\ In f (letters o)).
Proof.
  intros H T E. destruct opts as [|o0 opts0].
  - left. split; [reflexivity|]. unfold pf_flags in E. cbn [pf_option_flags flat_map some andb pf_established bind negb] in E. apply ok_inj in E. rewrite andb_true_r in E. auto.
  - right. set (opts := o0 :: opts0) in *. assert (N : opts <> []) by discriminate. specialize (T N). split; [exact N|]. subst ps.
    unfold pf_flags in E. change (list_str_eqb ["tcp"] ["tcp"]) with true in E. rewrite andb_false_r in E. cbn [negb] in E. apply bind_ok in E. destruct E as (r & Er & E). apply established_spec in Er.
    assert (G : forall f, In f r <-> exists o, In o opts /\ In f (letters o)).
    { destruct Er as [(-> & Hn)|(-> & F & o & I & Eo)].
      - intros f. rewrite option_flags_in. split; intros (o & I & J); exists o; (split; [exact I|]); unfold letters in *; rewrite (Hn o I) in *; exact J.
      - assert (A : forall o', In o' opts -> is_est o' = true).
        { intros o' I'. destruct (is_est o') eqn:X; [reflexivity|]. exfalso. apply (flag_some o' (H o' I') X). destruct (pf_option_flags [o']) as [|f fs] eqn:Y; [reflexivity|].
          assert (Z : In f (pf_option_flags opts)) by (apply option_flags_in; exists o'; split; [exact I'|rewrite Y; left; reflexivity]). rewrite F in Z. destruct Z. }
        intros f. split; [intros J; exists o; split; [exact I|unfold letters; rewrite Eo; exact J]|]. intros (o' & I' & J). unfold letters in J. rewrite (A o' I') in J. exact J. }
    assert (Nr : r <> []).
    { intros X. subst r. assert (Z : exists f, In f (letters o0)).
      { unfold letters. destruct (is_est o0) eqn:X; [exists "A"; left; reflexivity|]. pose proof (flag_some o0 (H o0 (or_introl eq_refl)) X) as Y. destruct (pf_option_flags [o0]) as [|f fs]; [congruence|exists f; left; reflexivity]. }
      destruct Z as (f & Z). exact (proj2 (G f) (ex_intro _ o0 (conj (or_introl eq_refl) Z))). }
    assert (Sr : some r = true) by (destruct r; [congruence|reflexivity]). rewrite Sr in E. cbn [negb] in E. rewrite andb_false_r in E. apply ok_inj in E. subst fl. cbn [fst snd].
    split; [reflexivity|]. split; [exact Nr|exact G].
Qed.
Lemma join_has c l : has_char c (join "" l) = true <-> exists s, In s l /\ has_char c s = true.
Proof.
  induction l as [|a l IH]; [split; [discriminate|intros (s & [] & _)]|]. destruct l as [|b l].
  - cbn [join]. split; [intros H; exists a; split; [left; reflexivity|exact H]|intros (s & [<-|[]] & H); exact H].
  - change (join "" (a :: b :: l)) with (a ++ join "" (b :: l))%string. rewrite has_char_app, orb_true_iff, IH. split.
    + intros [H|(s & I & H)]; [exists a; split; [left; reflexivity|exact H]|exists s; split; [right; exact I|exact H]].
    + intros (s & [<-|I] & H); [left; exact H|right; exists s; auto].
Qed.
Lemma flags_same x p : has_char "/" x = false -> (flags_say p (x ++ "/" ++ x)%string <-> forall c name, In (c, name) flag_letters -> has_char c x = true -> p_option p name).
Proof.
  intros N. unfold flags_say. split.
  - intros (s & m & E & Ns & H). assert (X : s = x /\ m = x).
    { assert (F : before_char "/" (s ++ "/" ++ m)%string = before_char "/" (x ++ "/" ++ x)%string) by (rewrite E; reflexivity).
      rewrite (before_char_app "/" _ _ Ns), (before_char_app "/" _ _ N) in F. cbn [append before_char] in F. change (Ascii.eqb "/" "/") with true in F. cbv iota in F.
      rewrite !str_app_nil in F. subst s. split; [reflexivity|].
      assert (G : after_char "/" (x ++ "/" ++ x)%string = after_char "/" (x ++ "/" ++ m)%string) by (rewrite E; reflexivity).
      rewrite !(after_char_app "/" _ _ N) in G. symmetry. exact G. }
    destruct X as (-> & ->). intros c name I J. apply (H c name I J), J.
  - intros H. exists x, x. split; [reflexivity|]. split; [exact N|]. intros c name I J. split; [intros _; exact J|intros _; exact (H c name I J)].
Qed.
Definition letter_words : list string := ["A"; "S"; "F"; "R"; "U"; "P"; "SAFRUP"].
Lemma letters_words o f : In o option_names -> In f (letters o) -> In f letter_words.
Proof.
  intros I J. assert (F : forallb (fun o => forallb (fun f => str_in f letter_words) (letters o)) option_names = true) by reflexivity.
  rewrite forallb_forall in F. specialize (F o I). rewrite forallb_forall in F. apply str_in_spec, F, J.
Qed.
Lemma letters_mean o p : In o option_names -> pf_traffic p ->
  (forall c name f, In (c, name) flag_letters -> In f (letters o) -> has_char c f = true -> p_option p name) <-> p_option p o.
Proof.
  intros I [_ _ _ (P1 & P2) P3 _].
  assert (One : forall o c n, letters o = [String c ""] -> In (c, n) flag_letters -> (forall n', In (c, n') flag_letters -> n' = n) ->
    (forall c' name f, In (c', name) flag_letters -> In f (letters o) -> has_char c' f = true -> p_option p name) <-> p_option p n).
  { intros o' c n E J U. rewrite E. split.
    - intros H. apply (H c n (String c "") J (or_introl eq_refl)). cbn [has_char]. rewrite Ascii.eqb_refl. reflexivity.
    - intros H c' name f K [<-|[]] X. cbn [has_char] in X. rewrite orb_false_r in X. apply Ascii.eqb_eq in X. subst c'. rewrite (U name K). exact H. }
  assert (Un : forall c n n', In (c, n) flag_letters -> In (c, n') flag_letters -> n' = n).
  { intros c n n' A B. cbn [flag_letters In] in A, B. repeat (destruct A as [A|A]; [injection A as <- <-; repeat (destruct B as [B|B]; [try discriminate B; injection B as <-; reflexivity|]); destruct B|]). destruct A. }
  destruct I as [<-|[<-|[<-|[<-|[<-|[<-|[<-|[<-|[<-|[]]]]]]]]]].
  - rewrite P1. apply (One "established" "A"%char "ack"); [reflexivity|cbn; auto|]. intros n' K. apply (Un "A"%char "ack" n'); [cbn; auto|exact K].
  - rewrite P2. apply (One "tcp-established" "A"%char "ack"); [reflexivity|cbn; auto|]. intros n' K. apply (Un "A"%char "ack" n'); [cbn; auto|exact K].
  - apply (One "syn" "S"%char "syn"); [reflexivity|cbn; auto|]. intros n' K. apply (Un "S"%char "syn" n'); [cbn; auto|exact K].
  - apply (One "ack" "A"%char "ack"); [reflexivity|cbn; auto|]. intros n' K. apply (Un "A"%char "ack" n'); [cbn; auto|exact K].
  - apply (One "fin" "F"%char "fin"); [reflexivity|cbn; auto|]. intros n' K. apply (Un "F"%char "fin" n'); [cbn; auto|exact K].
  - apply (One "rst" "R"%char "rst"); [reflexivity|cbn; auto|]. intros n' K. apply (Un "R"%char "rst" n'); [cbn; auto 10|exact K].
  - apply (One "urg" "U"%char "urg"); [reflexivity|cbn; auto 10|]. intros n' K. apply (Un "U"%char "urg" n'); [cbn; auto 10|exact K].
  - apply (One "psh" "P"%char "psh"); [reflexivity|cbn; auto 10|]. intros n' K. apply (Un "P"%char "psh" n'); [cbn; auto 10|exact K].
  - rewrite P3. change (letters "all") with ["SAFRUP"]. split.
    + intros H f J. assert (X : exists c, In (c, f) flag_letters /\ has_char c "SAFRUP" = true).
      { repeat (destruct J as [<-|J]; [eexists; split; [cbn; auto 10|reflexivity]|]). destruct J. }
      destruct X as (c & X1 & X2). exact (H c f "SAFRUP" X1 (or_introl eq_refl) X2).
    + intros H c name f J _ _. apply H. cbn [flag_letters In] in J. repeat (destruct J as [J|J]; [injection J as <- <-; cbn; auto 10|]). destruct J.
Qed.
Lemma flags_word stateful ps opts fl : (forall o, In o opts -> In o option_names) -> (opts <> [] -> ps = ["tcp"]) -> pf_flags stateful ps opts = Ok fl ->
  pf_word (join "" (fst fl) ++ "/" ++ join "" (snd fl))%string /\ has_char "/" (join "" (fst fl)) = false.
Proof.
  intros H T E. destruct (flags_spec _ _ _ _ H T E) as [(_ & ->)|(_ & Eq & _ & G)].
  - destruct ((negb (some ps) || list_str_eqb ps ["tcp"]) && stateful); (split; [apply lit; reflexivity|reflexivity]).
  - rewrite <- Eq.
    assert (L : forall f, In f (fst fl) -> In f letter_words) by (intros f I; apply G in I; destruct I as (o & I & J); exact (letters_words o f (H o I) J)).
    assert (F : forall_char pf_char (join "" (fst fl)) = true).
    { clear - L. induction (fst fl) as [|a l IH]; [reflexivity|]. assert (Fa : forall_char pf_char a = true) by (destruct (L a (or_introl eq_refl)) as [<-|[<-|[<-|[<-|[<-|[<-|[<-|[]]]]]]]]; reflexivity).
      destruct l as [|b l]; [exact Fa|]. change (join "" (a :: b :: l)) with (a ++ join "" (b :: l))%string. rewrite forall_char_app, Fa, IH by (intros f I; apply L; right; exact I). reflexivity. }
    split.
    + split; [|rewrite !forall_char_app, F; reflexivity]. destruct (join "" (fst fl)); discriminate.
    + destruct (has_char "/" (join "" (fst fl))) eqn:X; [|reflexivity]. apply join_has in X. destruct X as (s & I & X). exfalso. destruct (L s I) as [<-|[<-|[<-|[<-|[<-|[<-|[<-|[]]]]]]]]; discriminate X.
Qed.
(** The flags of a rule, for packets that open connections or rules that keep no state. *)
Lemma flags_mean (r : pf_rule) stateful ps opts fl p : (forall o, In o opts -> In o option_names) -> (opts <> [] -> ps = ["tcp"]) -> pf_flags stateful ps opts = Ok fl ->
  pr_flags r = opt_if (some (fst fl) && some (snd fl)) (join "" (fst fl) ++ "/" ++ join "" (snd fl))%string ->
  (stateful = false -> pr_state r = Some "no") -> pf_traffic p -> opens p \/ stateful = false -> any_or ps (eq (p_proto p)) ->
  (forall w, effective_flags r = Some w -> p_proto p = "tcp" -> flags_say p w) <-> forall o, In o opts -> p_option p o.
Proof.
  intros H T E Fr St Tr Op Pr. destruct (flags_word _ _ _ _ H T E) as (_ & Ns).
  assert (Syn : opens p -> p_proto p = "tcp" -> flags_say p "S/SA").
  { intros O X. specialize (O X). exists "S", "SA". split; [reflexivity|]. split; [reflexivity|]. intros c name I J. destruct O as (O1 & O2).
    cbn [flag_letters In] in I. destruct I as [I|[I|[I|[I|[I|[I|[]]]]]]]; injection I as <- <-; try discriminate J; [split; auto|]. split; [intros X'; contradiction|discriminate]. }
  destruct (flags_spec _ _ _ _ H T E) as [(-> & ->)|(No & Eq & Nf & G)].
  - split; [intros _ o []|]. intros _ w Ew X. destruct Op as [Op| ->].
    + destruct ((negb (some ps) || list_str_eqb ps ["tcp"]) && stateful); unfold effective_flags in Ew; rewrite Fr in Ew; cbn [fst snd some andb opt_if] in Ew.
      * injection Ew as <-. exact (Syn Op X).
      * destruct (String.eqb (pr_action r) "pass"); [|discriminate Ew].
        assert (w = "S/SA") as ->; [|exact (Syn Op X)]. destruct (pr_state r) as [s|]; [|congruence].
        clear - Ew. do 2 (destruct s as [|[[] [] [] [] [] [] [] []] s]; try congruence). destruct s; congruence.
    + rewrite andb_false_r in Fr. unfold effective_flags in Ew. rewrite Fr, (St eq_refl) in Ew. cbn [fst snd some andb opt_if] in Ew. destruct (String.eqb (pr_action r) "pass"); discriminate Ew.
  - specialize (T No). subst ps. assert (X : p_proto p = "tcp") by (destruct Pr as [Pr|(q & [<-|[]] & Pr)]; [discriminate Pr|exact Pr]).
    assert (S : some (fst fl) = true) by (destruct (fst fl); [congruence|reflexivity]). rewrite <- Eq, S in Fr. cbn [andb opt_if] in Fr.
    unfold effective_flags. rewrite Fr. set (x := join "" (fst fl)) in *.
    assert (A : (forall w, Some (x ++ "/" ++ x)%string = Some w -> p_proto p = "tcp" -> flags_say p w) <-> flags_say p (x ++ "/" ++ x)%string).
    { split; [intros Q; exact (Q _ eq_refl X)|]. intros Q w Ew _. assert (w = (x ++ "/" ++ x)%string) by congruence. subst w. exact Q. }
    rewrite A, (flags_same x p Ns). split.
    + intros Q o I. apply (letters_mean o p (H o I) Tr). intros c name f K J C. apply (Q c name K). apply join_has. exists f. split; [apply G; exists o; auto|exact C].
    + intros Q c name K J. apply join_has in J. destruct J as (f & J & C). apply G in J. destruct J as (o & I & J). exact (proj2 (letters_mean o p (H o I) Tr) (Q o I) c name f K J C).
Qed.

(** The rules of an nftables term: addresses, options, groups, families. *)
From Coq Require Import Lia ZifyBool ZifyNat.
From Verif Require Import SpecNft BaseFacts PyStrFacts TextProofs CiscoProofs CiscoProofs2 CiscoTerm CiscoAcl CiscoEst GenProofs GenProofs2 IPFacts ExcludeProofs NftText NftTerm.
Local Open Scope string_scope.
Local Open Scope list_scope.
Local Open Scope Z_scope.

(** ** Addresses *)

Definition bounded (p : packet) : Prop :=
  fst (p_src p) = fst (p_dst p) /\ 0 <= snd (p_src p) < 2 ^ width (fst (p_src p)) /\ 0 <= snd (p_dst p) < 2 ^ width (fst (p_dst p)).
Definition book_says (v : ver) (l : list net) (x : ipaddr) : Prop := fst x = v /\ exists s, In s (addr_book v l) /\ prefix_says v s (snd x).
Lemma book_covers v l x : valid_list l -> 0 <= snd x < 2 ^ width (fst x) -> book_says v l x <-> fst x = v /\ covered l x.
Proof.
  intros V B. unfold book_says, addr_book. destruct x as (w, x). cbn [fst snd] in *. split.
  - intros (-> & s & I & P). split; [reflexivity|]. apply in_map_iff in I. destruct I as (n & <- & I). apply filter_In in I. destruct I as (I & E).
    apply ver_eqb_eq in E. exists n. split; [exact I|]. subst v. apply prefix_text_says; [exact (proj1 (Forall_forall _ _) V n I)|exact B|exact P].
  - intros (-> & n & I & C). split; [reflexivity|]. pose proof C as C'. destruct C' as (E & _). cbn in E. exists (prefixlen_text n). split.
    + apply in_map_iff. exists n. split; [reflexivity|]. apply filter_In. split; [exact I|]. apply ver_eqb_eq. congruence.
    + assert (Ev : nver n = v) by congruence. subst v. apply prefix_text_says; [exact (proj1 (Forall_forall _ _) V n I)|exact B|exact C].
Qed.
Lemma book_words v l : valid_list l -> Forall plain_word (addr_book v l).
Proof.
  intros V. apply Forall_forall. intros s I. apply in_map_iff in I. destruct I as (n & <- & I). apply filter_In in I. destruct I as (I & _).
  apply prefix_word, (proj1 (Forall_forall _ _) V n I).
Qed.
Lemma addr_piece v b (f : packet -> ipaddr) l : (b = "saddr" /\ f = p_src \/ b = "daddr" /\ f = p_dst) -> addr_book v l <> [] -> valid_list l ->
  piece (append (nft_fam v) (append " " (append b (append " " (nft_set (addr_book v l)))))) (fun p => book_says v l (f p)).
Proof.
  intros B N V. apply match_piece.
  - destruct v; (split; [discriminate|reflexivity]).
  - destruct B as [(-> & _)|(-> & _)]; (split; [discriminate|reflexivity]).
  - exact N.
  - apply book_words, V.
  - destruct v; cbn; intuition discriminate.
  - intros i E. exists (fun p => book_says v l (f p)). split; [|tauto]. unfold nft_match. rewrite E.
    destruct v; destruct B as [(-> & ->)|(-> & ->)]; reflexivity.
Qed.
Definition sides (src dst : list net) (p : packet) : Prop := (src = [] \/ covered src (p_src p)) /\ (dst = [] \/ covered dst (p_dst p)).
Definition marked (v : ver) (s : string) : Prop :=
  match v with V4 => starts_with "ip " s = true | V6 => starts_with "ip " s = false /\ starts_with "ip6" s = true end.
Lemma book_none v l x : valid_list l -> 0 <= snd x < 2 ^ width (fst x) -> addr_book v l = [] -> fst x = v -> covered l x -> False.
Proof.
  intros V B E F C. destruct (proj2 (book_covers v l x V B) (conj F C)) as (_ & s & I & _). rewrite E in I. destruct I.
Qed.
Lemma addrs_exact v src dst : valid_list src -> valid_list dst ->
  (src = [] /\ dst = [] /\ addr_statement v src dst = []) \/
  ((src <> [] \/ dst <> []) /\ addr_statement v src dst = [] /\ forall p, bounded p -> fst (p_src p) = v -> ~ sides src dst p) \/
  (exists s c, addr_statement v src dst = [s] /\ (src <> [] \/ dst <> []) /\ marked v s /\ piece s c /\
     forall p, bounded p -> (c p <-> fst (p_src p) = v /\ sides src dst p)).
Proof.
  intros Vs Vd. unfold addr_statement.
  assert (Ps : addr_book v src <> [] -> piece (append (nft_fam v) (append " saddr " (nft_set (addr_book v src)))) (fun p => book_says v src (p_src p))).
  { intros N. apply (addr_piece v "saddr" p_src src); auto. }
  assert (Pd : addr_book v dst <> [] -> piece (append (nft_fam v) (append " daddr " (nft_set (addr_book v dst)))) (fun p => book_says v dst (p_dst p))).
  { intros N. apply (addr_piece v "daddr" p_dst dst); auto. }
  assert (M : forall k, marked v (append (nft_fam v) (append " saddr " k)) /\ marked v (append (nft_fam v) (append " daddr " k))).
  { intros k. destruct v; split; repeat split; reflexivity. }
  destruct (some src) eqn:Es; [apply some_true in Es|apply some_false in Es]; (destruct (some dst) eqn:Ed; [apply some_true in Ed|apply some_false in Ed]); cbn [andb].
  - destruct (some (addr_book v src)) eqn:Bs; [apply some_true in Bs|apply some_false in Bs]; cbn [andb].
    + destruct (some (addr_book v dst)) eqn:Bd; [apply some_true in Bd|apply some_false in Bd].
      * right. right. eexists _, (fun p => book_says v src (p_src p) /\ book_says v dst (p_dst p)). split; [reflexivity|]. split; [auto|]. split.
        { rewrite !str_app_assoc. apply M. } split.
        { apply piece_cat; auto. }
        intros p (F & B1 & B2). rewrite (book_covers v src _ Vs B1), (book_covers v dst _ Vd B2). unfold sides. rewrite <- F. intuition.
      * right. left. split; [auto|]. split; [reflexivity|]. intros p (F & B1 & B2) E (_ & [S|S]); [congruence|]. apply (book_none v dst (p_dst p)); auto. congruence.
    + right. left. split; [auto|]. split; [reflexivity|]. intros p (F & B1 & B2) E ([S|S] & _); [congruence|]. apply (book_none v src (p_src p)); auto.
  - destruct (some (addr_book v src)) eqn:Bs; [apply some_true in Bs|apply some_false in Bs].
    + right. right. eexists _, (fun p => book_says v src (p_src p)). split; [reflexivity|]. split; [auto|]. split; [apply M|]. split; [auto|].
      intros p (F & B1 & B2). rewrite (book_covers v src _ Vs B1). unfold sides. subst dst. intuition.
    + right. left. split; [auto|]. split; [reflexivity|]. intros p (F & B1 & B2) E ([S|S] & _); [congruence|]. apply (book_none v src (p_src p)); auto.
  - destruct (some (addr_book v dst)) eqn:Bd; [apply some_true in Bd|apply some_false in Bd].
    + right. right. eexists _, (fun p => book_says v dst (p_dst p)). split; [reflexivity|]. split; [auto|]. split; [apply M|]. split; [auto|].
      intros p (F & B1 & B2). rewrite (book_covers v dst _ Vd B2). unfold sides. subst src. rewrite <- F. intuition.
    + right. left. split; [auto|]. split; [reflexivity|]. intros p (F & B1 & B2) E (_ & [S|S]); [congruence|]. apply (book_none v dst (p_dst p)); auto. congruence.
  - left. auto.
Qed.

(** ** Options *)

Definition new_says (t : term) (p : packet) : Prop := t_action t = ["accept"] -> t_icmp_type t = [] -> ~ p_option p "established".
Lemma nothing_piece s l : spells s l -> (forall r, nft_rule (l ++ r) = nft_rule r) -> piece s (fun _ => True).
Proof. intros S A. exists l, []. split; [exact S|]. split; [exact A|]. intros p. split; [auto|constructor]. Qed.
Lemma new_piece : piece "ct state new" (fun p => ~ p_option p "established").
Proof.
  apply (match_piece "ct" "state" ["new"]); try (split; [discriminate|reflexivity]); [discriminate| |cbn; intuition discriminate|].
  - constructor; [split; [discriminate|reflexivity]|constructor].
  - intros i E. eexists. split; [unfold nft_match; rewrite E; reflexivity|]. intros p. cbn beta. unfold one_of. cbn [In]. split.
    + intros (c & [<-|[]] & H). exact H.
    + intros H. eexists. split; [left; reflexivity|exact H].
Qed.
Lemma counter_piece : piece "counter" (fun _ => True).
Proof. apply (nothing_piece _ [Word "counter"]); [apply spells_word; split; [discriminate|reflexivity]|]. intros r. reflexivity. Qed.
Lemma log_piece n : quotable n = true -> piece (append "log prefix " (append (String dquote "") (append n (String dquote "")))) (fun _ => True).
Proof.
  intros Q. apply (nothing_piece _ ([Word "log"] ++ [Word "prefix"] ++ [Word (String dquote n)])).
  - change (append "log prefix " (append (String dquote "") (append n (String dquote "")))) with (append "log" (String " " (append "prefix" (String " " (String dquote (n ++ String dquote ""))))))%string.
    apply spells_cat; [apply spells_word; split; [discriminate|reflexivity]|]. apply spells_cat; [apply spells_word; split; [discriminate|reflexivity]|].
    apply spells_quoted, Q.
  - intros r. cbn [app nft_rule]. assert (X : is_quoted (String dquote n) = true) by (unfold is_quoted, starts_with; cbn; destruct n; reflexivity).
    rewrite X. reflexivity.
Qed.
Lemma name_quotable n : nft_name n = true -> quotable n = true.
Proof.
  unfold nft_name. destruct n as [|c n]; [discriminate|]. rewrite !andb_true_iff. intros ((H & _) & _). revert H. apply forall_char_impl.
  intros a. all_chars a.
Qed.
Lemma join_piece l : Forall (fun s => piece s (fun _ => True)) l -> piece (join " " l) (fun _ => True).
Proof.
  intros F. destruct l as [|x l]; [exact piece_nil|]. revert x F. induction l as [|y l IH]; intros x F; inversion F as [|? ? P Fl]; subst; [exact P|].
  rewrite join_cons2. apply (piece_iff _ (fun _ => True /\ True)); [tauto|]. apply piece_cat; [exact P|]. apply IH, Fl.
Qed.
Lemma options_piece fams t : nft_term_ok fams t -> piece (nft_options t) (new_says t).
Proof.
  intros OK. unfold nft_options.
  set (rest := (if some (t_logging t) && negb (existsb (substring_of "disable") (t_logging t)) then _ else []) ++ (if given (t_counter t) then ["counter"] else [])).
  assert (R : Forall (fun s => piece s (fun _ => True)) rest).
  { unfold rest. apply Forall_app. split.
    - destruct (some (t_logging t) && negb (existsb (substring_of "disable") (t_logging t))); [|constructor]. constructor; [|constructor].
      apply log_piece, name_quotable, (nt_name _ _ OK).
    - destruct (given (t_counter t)); [|constructor]. constructor; [exact counter_piece|constructor]. }
  destruct (nt_action _ _ OK) as (a & Ea & Ia). rewrite Ea.
  destruct (negb (str_in "deny" [a]) && negb (str_in "reject" [a]) && negb (some (t_icmp_type t))) eqn:E.
  - rewrite !andb_true_iff, !negb_true_iff in E. destruct E as ((E1 & E2) & E3). apply some_false in E3.
    assert (a = "accept") by (repeat destruct Ia as [<-|Ia]; try destruct Ia; [reflexivity|discriminate E1|discriminate E2]). subst a.
    apply (piece_iff _ (fun p => ~ p_option p "established" /\ True)); [intros p; unfold new_says; rewrite Ea; tauto|].
    cbn [app]. destruct rest as [|x rest]; [apply (piece_iff _ (fun p => ~ p_option p "established")); [tauto|exact new_piece]|].
    rewrite join_cons2. apply piece_cat; [exact new_piece|]. apply join_piece, R.
  - apply (piece_iff _ (fun _ => True)); [|apply join_piece, R]. intros p. unfold new_says. split; [|auto]. intros _ A T. exfalso. rewrite Ea in A. injection A as ->.
    rewrite T in E. discriminate E.
Qed.
Definition interface_says (t : term) (p : packet) : Prop := opt_eq (t_source_interface t) (p_src_if p) /\ opt_eq (t_destination_interface t) (p_dst_if p).
Lemma interface_piece fams t : nft_term_ok fams t -> given (t_source_interface t) && given (t_destination_interface t) = false ->
  piece (nft_interface t) (interface_says t) /\ (nft_interface t = "" -> t_source_interface t = None /\ t_destination_interface t = None).
Proof.
  intros OK G. pose proof (proj1 (nt_interface _ _ OK)) as I. unfold nft_interface, interface_says.
  assert (K : forall w s (f : packet -> string), s <> "" -> forall_char name_char s = true -> (w = "iifname" /\ f = p_src_if \/ w = "oifname" /\ f = p_dst_if) ->
    piece (append w (append " " s)) (fun p => f p = s)).
  { intros w s f Ns Cs W. assert (Pw : plain_word w) by (destruct W as [(-> & _)|(-> & _)]; (split; [discriminate|reflexivity])).
    exists ([Word w] ++ [Word s]), [fun p => f p = s]. split.
    - apply spells_cat; [apply spells_word, Pw|apply spells_word]. split; [exact Ns|]. apply (word_char_of name_char); [exact name_word|exact Cs].
    - split.
      + intros r. cbn [app nft_rule fold_right]. destruct W as [(-> & ->)|(-> & ->)]; rewrite Cs; reflexivity.
      + intros p. split; [intros H; inversion H; assumption|auto]. }
  destruct (t_source_interface t) as [i|] eqn:E1.
  - destruct (I i (or_introl eq_refl)) as (Ni & Ci). destruct i as [|c i]; [congruence|]. cbn [nonempty is_empty negb].
    destruct (t_destination_interface t) as [o|] eqn:E2.
    { destruct (I o (or_intror eq_refl)) as (No & _). destruct o; [congruence|]. discriminate G. }
    split; [|discriminate]. apply (piece_iff _ (fun p => p_src_if p = String c i)); [intros p; cbn; tauto|]. apply (K "iifname" (String c i) p_src_if); auto.
  - destruct (t_destination_interface t) as [o|] eqn:E2.
    + destruct (I o (or_intror eq_refl)) as (No & Co). destruct o as [|c o]; [congruence|]. cbn [nonempty is_empty negb].
      split; [|discriminate]. apply (piece_iff _ (fun p => p_dst_if p = String c o)); [intros p; cbn; tauto|]. apply (K "oifname" (String c o) p_dst_if); auto.
    + split; [|auto]. apply (piece_iff _ (fun _ => True)); [intros p; cbn; tauto|exact piece_nil].
Qed.

(** ** Groups *)

Definition stmt (verdict s : string) (c : packet -> Prop) : Prop := exists b, s = (b ++ " " ++ verdict)%string /\ piece b c.
Lemma stmt_nonempty v s c : stmt v s c -> s <> "".
Proof. intros (b & -> & _) E. destruct b; discriminate E. Qed.
Definition product (ca co : packet -> Prop) (cs : list (packet -> Prop)) : list (packet -> Prop) :=
  match cs with [] => [fun p => ca p /\ co p] | _ => map (fun d p => ca p /\ d p /\ co p) cs end.
Lemma group_core v addrs pps options verdict (ca co : packet -> Prop) cs : In verdict nft_verdicts ->
  (addrs = [] /\ (forall p, ca p <-> True) \/ exists a, addrs = [a] /\ marked v a /\ piece a ca) ->
  Forall2 piece pps cs -> (v = V6 -> forall s, In s pps -> starts_with "icmp type" s = false) -> piece options co ->
  exists cs', Forall2 (stmt verdict)
    (if some addrs then
      flat_map (fun addr =>
        if some pps then
          flat_map (fun pstat =>
            let line := append addr (append (nft_add pstat) (append (nft_add options) (nft_add verdict))) in
            if starts_with "icmp type" pstat || starts_with "ip " addr then (if starts_with "ip " addr then [line] else [])
            else if starts_with "icmpv6 type" pstat || starts_with "ip6" addr then (if starts_with "ip6" addr then [line] else [])
            else []) pps
        else [append addr (append (nft_add options) (nft_add verdict))]) addrs
    else if some pps then map (fun pstat => append pstat (append (nft_add options) (nft_add verdict))) pps
    else [append (nft_add options) (nft_add verdict)]) cs' /\
    List.length cs' = List.length (product ca co cs) /\
    (forall d p, In d cs' -> d p -> exists d', In d' (product ca co cs) /\ d' p) /\ (forall d p, In d (product ca co cs) -> d p -> exists d', In d' cs' /\ d' p).
Proof.
  intros Iv A P M O.
  assert (Av : nft_add verdict = append " " verdict) by (repeat destruct Iv as [<-|Iv]; try destruct Iv; reflexivity). rewrite Av.
  destruct A as [(-> & Ca)|(a & -> & Ma & Pa)].
  - cbn [some]. destruct P as [|s d pps cs P1 P2].
    + cbn [some product]. exists [co]. split.
      * constructor; [|constructor]. exists (nft_add options). split; [reflexivity|]. apply (piece_iff _ (fun p => True /\ co p)); [tauto|].
        exact (piece_add "" _ options _ piece_nil O).
      * split; [reflexivity|]. split; [intros d p [<-|[]] H; eexists; split; [left; reflexivity|]; split; [apply Ca; exact I|exact H]|].
        intros d p [<-|[]] (_ & H). exists co. split; [left; reflexivity|exact H].
    + cbn [some]. exists (map (fun d p => d p /\ co p) (d :: cs)). split; [|split; [|split]].
      * assert (Q : Forall2 piece (s :: pps) (d :: cs)) by (constructor; assumption). clear - Q O Av. induction Q as [|x e l k X Q IH]; [constructor|].
        cbn [map]. constructor; [|exact IH]. exists (x ++ nft_add options)%string. split; [rewrite str_app_assoc; reflexivity|]. apply piece_add; assumption.
      * cbn [product]. rewrite !map_length. reflexivity.
      * intros e p I E. cbn [product]. apply in_map_iff in I. destruct I as (x & <- & I). destruct E as (E1 & E2).
        eexists. split; [apply in_map_iff; exists x; split; [reflexivity|exact I]|]. cbn beta. split; [apply Ca; exact Logic.I|auto].
      * intros e p I E. cbn [product] in I. apply in_map_iff in I. destruct I as (x & <- & I). destruct E as (_ & E1 & E2).
        eexists. split; [apply in_map_iff; exists x; split; [reflexivity|exact I]|]. cbn beta. auto.
  - cbn [some flat_map]. rewrite app_nil_r. destruct P as [|s d pps cs P1 P2].
    + cbn [some product]. exists [fun p => ca p /\ co p]. split.
      * constructor; [|constructor]. exists (a ++ nft_add options)%string. split; [rewrite str_app_assoc; reflexivity|]. apply piece_add; assumption.
      * split; [reflexivity|]. split; intros d p [<-|[]] H; (eexists; split; [left; reflexivity|exact H]).
    + cbn [some]. exists (map (fun d p => (ca p /\ d p) /\ co p) (d :: cs)). split; [|split; [|split]].
      * assert (Q : Forall2 piece (s :: pps) (d :: cs)) by (constructor; assumption). clear P1 P2.
        revert Q M. generalize (s :: pps) (d :: cs). intros l k Q M. induction Q as [|x e l k X Q IH]; [constructor|]. cbn [flat_map map].
        match goal with |- Forall2 _ (?f ++ _) _ => assert (E : f = [append a (append (nft_add x) (append (nft_add options) (append " " verdict)))]) end.
        { destruct v; cbn [marked] in Ma.
          - rewrite Ma. cbv zeta. rewrite orb_true_r. reflexivity.
          - destruct Ma as (M1 & M2). rewrite M1, M2. cbv zeta. rewrite (M eq_refl x (or_introl eq_refl)). cbn [orb]. rewrite orb_true_r. reflexivity. }
        rewrite E. cbn [app]. constructor; [|apply IH; intros Ev y I; apply (M Ev); right; exact I].
        exists ((a ++ nft_add x) ++ nft_add options)%string. split; [rewrite !str_app_assoc; reflexivity|]. apply piece_add; [apply piece_add; assumption|assumption].
      * cbn [product]. rewrite !map_length. reflexivity.
      * intros e p I E. cbn [product]. apply in_map_iff in I. destruct I as (x & <- & I). destruct E as ((E1 & E2) & E3).
        eexists. split; [apply in_map_iff; exists x; split; [reflexivity|exact I]|]. cbn beta. auto.
      * intros e p I E. cbn [product] in I. apply in_map_iff in I. destruct I as (x & <- & I). destruct E as (E1 & E2 & E3).
        eexists. split; [apply in_map_iff; exists x; split; [reflexivity|exact I]|]. cbn beta. auto.
Qed.

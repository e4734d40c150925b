(** The parts of a Juniper term: what each writes and what it asks of a packet. *)
From Coq Require Import Lia ZifyBool ZifyNat Permutation.
From Verif Require Import SpecJuniper BaseFacts PyStrFacts TextProofs CiscoProofs GenProofs GenProofs2 CiscoProofs2 CiscoTerm IPFacts
  ExcludeProofs PolicyProofs JuniperText.
Local Open Scope string_scope.
Local Open Scope list_scope.
Local Open Scope Z_scope.

(** ** Words *)

Lemma plain_ok w : plain_word w -> word_ok w = true.
Proof.
  intros (_ & P). unfold word_ok. apply negb_true_iff. rewrite !orb_false_iff, !String.eqb_neq.
  repeat split; intros ->; discriminate P.
Qed.
Lemma plain_not_bracket w : plain_word w -> String.eqb w "[" = false.
Proof. intros (_ & P). apply String.eqb_neq. intros ->. discriminate P. Qed.
Lemma plain_lit w : is_empty w = false -> forall_char plain_char w = true -> plain_word w.
Proof. intros E P. split; [intros ->; discriminate E|exact P]. Qed.
Lemma digit_plain c : is_digit c = true -> plain_char c = true.
Proof.
  destruct c as [b0 b1 b2 b3 b4 b5 b6 b7]. destruct b0, b1, b2, b3, b4, b5, b6, b7; vm_compute; congruence.
Qed.
Lemma addrc_plain c : is_addrc c = true -> plain_char c = true.
Proof.
  destruct c as [b0 b1 b2 b3 b4 b5 b6 b7]. destruct b0, b1, b2, b3, b4, b5, b6, b7; vm_compute; congruence.
Qed.
Lemma dec_plain n : 0 <= n -> plain_word (dec n).
Proof.
  intros H. split; [apply dec_nonempty|]. eapply forall_char_impl; [apply digit_plain|apply dec_digits, H].
Qed.
Lemma forall_char_cat f a b : forall_char f a = true -> forall_char f b = true -> forall_char f (a ++ b)%string = true.
Proof. induction a as [|c a IH]; cbn [append forall_char]; [auto|]. rewrite !andb_true_iff. intros (A & B) C. auto. Qed.
Lemma prefix_plain n : valid n -> plain_word (prefixlen_text n).
Proof.
  intros (Hl & Ha & _). unfold prefixlen_text. split.
  - pose proof (addr_text_nonempty _ _ Ha). destruct (addr_text (nver n) (naddr n)); [congruence|discriminate].
  - apply forall_char_cat; [eapply forall_char_impl; [apply addrc_plain|apply addr_text_chars]|].
    apply (forall_char_cat plain_char "/"); [reflexivity|]. apply dec_plain. lia.
Qed.
Lemma port_plain r : 0 <= fst r -> 0 <= snd r -> plain_word (port_text r).
Proof.
  destruct r as (lo, hi). cbn [fst snd]. intros A B. unfold port_text. destruct (lo =? hi); [apply dec_plain, A|]. split.
  - pose proof (dec_nonempty lo). destruct (dec lo); [congruence|discriminate].
  - apply forall_char_cat; [apply dec_plain, A|]. apply (forall_char_cat plain_char "-"); [reflexivity|apply dec_plain, B].
Qed.

(** ** Sections of a from clause *)

(** The lines read as statements that together ask for [cond]. *)
Definition section (v : ver) (p : packet) (lines : list string) (cond : Prop) : Prop :=
  exists l, renders lines l /\ forallb stmt_ok l = true /\ ((forall s, In s l -> holds v p s) <-> cond).
Lemma section_nil v p : section v p [] True.
Proof. exists []. split; [apply renders_nil|]. split; [reflexivity|]. split; [auto|intros _ s []]. Qed.
Lemma section_app v p a b A B : section v p a A -> section v p b B -> section v p (a ++ b) (A /\ B).
Proof.
  intros (x & X1 & X2 & X3) (y & Y1 & Y2 & Y3). exists (x ++ y). split; [apply renders_app; assumption|].
  split; [rewrite forallb_app, X2, Y2; reflexivity|]. rewrite <- X3, <- Y3. split.
  - intros H. split; intros s I; apply H, in_or_app; auto.
  - intros (H1 & H2) s I. apply in_app_or in I. destruct I; auto.
Qed.
Lemma section_iff v p a A B : (A <-> B) -> section v p a A -> section v p a B.
Proof. intros H (x & X1 & X2 & X3). exists x. split; [exact X1|]. split; [exact X2|]. rewrite X3. exact H. Qed.
Lemma section_leaf v p line ws : chunk line (ws ++ [";"]) -> forallb word_ok ws = true -> section v p [line] (holds v p (Leaf ws)).
Proof.
  intros C W. exists [Leaf ws]. split; [apply renders_line, C|]. split; [cbn [forallb stmt_ok]; rewrite W; reflexivity|].
  split; [intros H; apply H; left; reflexivity|intros H s [<-|[]]; exact H].
Qed.
Lemma section_true v p (cond : Prop) : cond -> section v p [] cond.
Proof. intros H. eapply section_iff; [|apply section_nil]. tauto. Qed.

(** The words of a group. *)
Definition gw (l : list string) : list string := match l with [x] => [x] | _ => "[" :: l ++ ["]"] end.
Lemma gw_values l : plain_words l -> values (gw l) = l.
Proof.
  intros P. assert (B : forall m, values ("[" :: m ++ ["]"]) = m) by (intros m; cbn [values String.eqb Ascii.eqb Bool.eqb]; apply removelast_last).
  unfold gw. destruct l as [|x [|y l]]; try apply B.
  cbn [values]. rewrite (plain_not_bracket x); [reflexivity|]. apply P. left. reflexivity.
Qed.
Lemma words_ok l : plain_words l -> forallb word_ok l = true.
Proof. intros P. apply forallb_forall. intros x I. apply plain_ok, P, I. Qed.
Lemma gw_ok l : plain_words l -> forallb word_ok (gw l) = true.
Proof.
  intros P. assert (B : forallb word_ok ("[" :: l ++ ["]"]) = true).
  { cbn [forallb]. rewrite forallb_app, (words_ok _ P). reflexivity. }
  unfold gw. destruct l as [|x [|y l]]; exact B.
Qed.
Lemma chunk_brackets l : plain_words l -> l <> [] -> chunk ("[ " ++ join " " l ++ " ];")%string (("[" :: l ++ ["]"]) ++ [";"]).
Proof.
  intros P N. change ("[" :: l ++ ["]"]) with (["["] ++ l ++ ["]"]).
  replace (["["] ++ l ++ ["]"]) with (["["] ++ l ++ ["]"]) by reflexivity.
  rewrite <- !app_assoc. apply chunk_app; [apply chunk_lit; reflexivity|].
  change (" ];")%string with (" " ++ "];")%string. rewrite <- str_app_assoc.
  apply chunk_app; [apply chunk_words; assumption|apply chunk_lit; reflexivity].
Qed.
Lemma chunk_group l : plain_words l -> l <> [] -> chunk (group l) (gw l ++ [";"]).
Proof.
  intros P N. destruct l as [|x [|y l]]; [congruence| |].
  - cbn [group gw app]. apply (chunk_word_special x ";"); [apply P; left; reflexivity|reflexivity].
  - cbn [group gw]. apply chunk_brackets; assumption.
Qed.
Lemma gw_nonempty l : exists w r, gw l = w :: r.
Proof. unfold gw. destruct l as [|x [|y l]]; eauto. Qed.
Lemma holds_keyword v p k ws : ws <> [] -> holds v p (Leaf (k :: ws)) = keyword v p k ws.
Proof. destruct ws; [congruence|reflexivity]. Qed.
Lemma chunk_key k s T : plain_word k -> chunk s T -> chunk (k ++ " " ++ s)%string (k :: T).
Proof.
  intros P C. rewrite <- str_app_assoc. change (k :: T) with ([k] ++ T). apply chunk_app; [apply (chunk_word_ws k " "); [exact P|reflexivity]|exact C].
Qed.
Lemma group_section v p k l : plain_word k -> plain_words l -> section v p (group_line k l) (l = [] \/ keyword v p k (gw l)).
Proof.
  intros K P. unfold group_line. destruct l as [|x l].
  - apply section_true. left. reflexivity.
  - cbn [some]. set (m := x :: l) in *. assert (N : m <> []) by discriminate. clearbody m.
    eapply section_iff; [|apply (section_leaf v p _ (k :: gw m))].
    + rewrite holds_keyword by (destruct (gw_nonempty m) as (w & r & ->); discriminate). tauto.
    + cbn [app]. apply chunk_key; [exact K|apply chunk_group; assumption].
    + cbn [forallb]. rewrite (plain_ok _ K), (gw_ok _ P). reflexivity.
Qed.
Lemma value_section v p k o : plain_word k -> plain_opt o ->
  section v p (value_line k o) (o = None \/ o = Some "" \/ exists s, o = Some s /\ plain_word s /\ keyword v p k [s]).
Proof.
  intros K P. unfold value_line. destruct o as [s|]; [|apply section_true; left; reflexivity].
  destruct s as [|c s]; [apply section_true; right; left; reflexivity|]. cbn [is_empty]. set (x := String c s) in *.
  assert (Px : plain_word x) by (apply P; [reflexivity|discriminate]). assert (N : x <> "") by discriminate. clearbody x.
  eapply section_iff; [|apply (section_leaf v p _ [k; x])].
  - rewrite holds_keyword by discriminate. split.
    + intros H. right. right. exists x. auto.
    + intros [E|[E|(y & E & _ & H)]]; [discriminate E|congruence|]. injection E as <-. exact H.
  - cbn [app]. apply chunk_key; [exact K|]. apply (chunk_word_special x ";"); [exact Px|reflexivity].
  - cbn [forallb]. rewrite (plain_ok _ K), (plain_ok _ Px). reflexivity.
Qed.

(** ** Values of keywords *)

Lemma one_of_gw P l : plain_words l -> one_of P (gw l) <-> exists w, In w l /\ P w.
Proof. intros H. unfold one_of. rewrite gw_values by exact H. reflexivity. Qed.
Lemma none_gw P l : plain_words l -> none P (gw l) <-> forall w, In w l -> ~ P w.
Proof. intros H. unfold none. rewrite gw_values by exact H. reflexivity. Qed.
Lemma any_or_gw (x : string) l : plain_words l -> l = [] \/ one_of (eq x) (gw l) <-> any_or l (eq x).
Proof. intros H. rewrite one_of_gw by exact H. unfold any_or. tauto. Qed.
Lemma none_of_gw (x : string) l : plain_words l -> l = [] \/ none (eq x) (gw l) <-> none_of l (eq x).
Proof. intros H. rewrite none_gw by exact H. unfold none_of. split; [intros [->|H1]; [intros a []|exact H1]|auto]. Qed.
Lemma port_text_says r n : 0 <= fst r -> 0 <= snd r -> in_text_range (port_text r) n <-> SpecPorts.in_range r n.
Proof.
  destruct r as (lo, hi). cbn [fst snd]. intros A B. unfold port_text, SpecPorts.in_range, in_text_range. cbn [fst snd].
  pose proof (dec_value lo A) as Dl. pose proof (dec_value hi B) as Dh.
  destruct (lo =? hi) eqn:E.
  - assert (hi = lo) by lia. subst hi. rewrite Dl. split.
    + intros [H|(a & b & (x & y & X & _) & _)]; [injection H as ->; lia|].
      exfalso. apply (numeral_no_dash _ _) in Dl. rewrite X in Dl. rewrite has_char_app in Dl. cbn in Dl. rewrite orb_true_r in Dl. discriminate Dl.
    + intros H. left. f_equal. lia.
  - split.
    + intros [H|(a & b & (x & y & X & Nx & Ny) & H)].
      * apply numeral_no_dash in H. rewrite has_char_app in H. cbn in H. rewrite orb_true_r in H. discriminate H.
      * assert (U : dec lo = x /\ dec hi = y).
        { pose proof (numeral_no_dash _ _ Dl) as D1. pose proof (numeral_no_dash _ _ Nx) as D2.
          cbn [append] in X. split.
          - apply (f_equal (before_char "-")) in X. rewrite !before_char_app in X by assumption. cbn in X. rewrite !str_app_nil in X. exact X.
          - apply (f_equal (after_char "-")) in X. rewrite !after_char_app in X by assumption. cbn in X. exact X. }
        destruct U as (<- & <-). rewrite Dl in Nx. rewrite Dh in Ny. injection Nx as <-. injection Ny as <-. exact H.
    + intros H. right. exists lo, hi. split; [|exact H]. exists (dec lo), (dec hi). auto.
Qed.
Definition ports_ok (l : list prange) : Prop := forall r, In r l -> 0 <= fst r /\ 0 <= snd r.
Lemma ports_plain l : ports_ok l -> plain_words (map port_text l).
Proof. intros H s I. apply in_map_iff in I. destruct I as (r & <- & I). apply port_plain; apply (H r I). Qed.
Lemma map_nil {A B} (f : A -> B) l : map f l = [] <-> l = [].
Proof. destruct l; cbn [map]; split; congruence. Qed.
Lemma ports_gw l n : ports_ok l -> map port_text l = [] \/ one_of (fun w => in_text_range w n) (gw (map port_text l)) <-> ports_match l n.
Proof.
  intros H. rewrite one_of_gw by (apply ports_plain, H). rewrite map_nil. unfold ports_match, in_ports.
  apply or_iff_compat_l. split.
  - intros (w & I & S). apply in_map_iff in I. destruct I as (r & <- & I). exists r. split; [exact I|]. apply port_text_says; [apply (H r I)|apply (H r I)|exact S].
  - intros (r & I & S). exists (port_text r). split; [apply in_map, I|]. apply port_text_says; [apply (H r I)|apply (H r I)|exact S].
Qed.
Lemma port_section v p l : ports_ok l ->
  section v p (group_line "port" (map port_text l)) (ports_match l (p_sport p) \/ ports_match l (p_dport p)).
Proof.
  intros H. eapply section_iff; [|apply group_section; [apply plain_lit; reflexivity|apply ports_plain, H]].
  change (keyword v p "port" (gw (map port_text l))) with
    (one_of (fun w => in_text_range w (p_sport p)) (gw (map port_text l)) \/ one_of (fun w => in_text_range w (p_dport p)) (gw (map port_text l))).
  rewrite <- !ports_gw by exact H. tauto.
Qed.
Lemma sport_section v p l : ports_ok l -> section v p (group_line "source-port" (map port_text l)) (ports_match l (p_sport p)).
Proof.
  intros H. eapply section_iff; [|apply group_section; [apply plain_lit; reflexivity|apply ports_plain, H]].
  change (keyword v p "source-port" (gw (map port_text l))) with (one_of (fun w => in_text_range w (p_sport p)) (gw (map port_text l))).
  apply ports_gw, H.
Qed.
Lemma dport_section v p l : ports_ok l -> section v p (group_line "destination-port" (map port_text l)) (ports_match l (p_dport p)).
Proof.
  intros H. eapply section_iff; [|apply group_section; [apply plain_lit; reflexivity|apply ports_plain, H]].
  change (keyword v p "destination-port" (gw (map port_text l))) with (one_of (fun w => in_text_range w (p_dport p)) (gw (map port_text l))).
  apply ports_gw, H.
Qed.
(** Keywords whose values are compared as they are. *)
Lemma eq_section v p k x l : plain_word k -> (forall ws, keyword v p k ws = one_of (eq x) ws) -> plain_words l ->
  section v p (group_line k l) (any_or l (eq x)).
Proof. intros K E P. eapply section_iff; [|apply group_section; assumption]. rewrite E. apply any_or_gw, P. Qed.
Lemma neq_section v p k x l : plain_word k -> (forall ws, keyword v p k ws = none (eq x) ws) -> plain_words l ->
  section v p (group_line k l) (none_of l (eq x)).
Proof. intros K E P. eapply section_iff; [|apply group_section; assumption]. rewrite E. apply none_of_gw, P. Qed.
Lemma range_section v p k n o : plain_word k -> (forall ws, keyword v p k ws = one_of (fun w => in_text_range w n) ws) -> plain_opt o ->
  section v p (value_line k o) (text_range o n).
Proof.
  intros K E P. eapply section_iff; [|apply value_section; assumption]. split.
  - intros [->|[->|(s & -> & Ps & H)]]; [exact I|left; reflexivity|]. rewrite E in H. destruct H as (w & J & H).
    cbn [values] in J. rewrite (plain_not_bracket s Ps) in J. destruct J as [<-|[]]. right. exact H.
  - destruct o as [s|]; [|auto]. cbn [text_range]. intros [->|H]; [auto|]. right. destruct s as [|c s]; [left; reflexivity|right].
    set (x := String c s) in *. assert (Px : plain_word x) by (apply P; [reflexivity|discriminate]). clearbody x.
    exists x. split; [reflexivity|]. split; [exact Px|]. rewrite E. exists x. split; [|exact H].
    cbn [values]. rewrite (plain_not_bracket x Px). left. reflexivity.
Qed.

(** ** Protocols *)

Definition proto_names_ok : forallb (fun kv => forall_char plain_char (fst kv) && negb (is_empty (fst kv)) &&
  match numeral_value (fst kv) with None => true | Some _ => false end && negb (String.eqb (fst kv) "icmp6") && negb (String.eqb (fst kv) "hop-by-hop")
  && negb (String.eqb (fst kv) "4")) proto_map = true.
Proof. vm_compute. reflexivity. Qed.
Lemma proto_name_ok q : In q (map fst proto_map) -> plain_word q /\ numeral_value q = None /\ q <> "icmp6" /\ q <> "hop-by-hop".
Proof.
  intros I. apply in_map_iff in I. destruct I as (kv & <- & I). pose proof (proj1 (forallb_forall _ _) proto_names_ok kv I) as H. cbv beta in H.
  rewrite !andb_true_iff in H. destruct H as (((((A & B) & C) & D) & E) & _). split; [split; [|exact A]|].
  - intros X. rewrite X in B. discriminate B.
  - split; [destruct (numeral_value (fst kv)); [discriminate C|reflexivity]|]. apply negb_true_iff, String.eqb_neq in D. apply negb_true_iff, String.eqb_neq in E. auto.
Qed.
(** An entry of the list of protocols and the protocol it stands for. *)
Definition stands_for (x : pval) (q : string) : Prop :=
  In q (map fst proto_map) /\
  (x = PName q \/ (q = "ipip" /\ x = PNum 4) \/ (q = "hopopt" /\ x = PName "hop-by-hop") \/ (q = "icmpv6" /\ x = PName "icmp6")).
Lemma stands_plain x q : stands_for x q -> plain_word (pval_text x).
Proof.
  intros (I & [->|[(_ & ->)|[(_ & ->)|(_ & ->)]]]); [apply proto_name_ok, I|apply plain_lit; reflexivity..].
Qed.
Lemma stands_says x q p : stands_for x q -> protocol_word (pval_text x) p <-> p_proto p = q.
Proof.
  intros (I & [->|[(-> & ->)|[(-> & ->)|(-> & ->)]]]); unfold protocol_word.
  - cbn [pval_text]. destruct (proto_name_ok _ I) as (_ & -> & N1 & N2).
    apply String.eqb_neq in N1, N2. rewrite N1, N2. reflexivity.
  - change (numeral_value (pval_text (PNum 4))) with (Some 4). cbv iota beta. apply num_says. vm_compute. tauto.
  - change (numeral_value (pval_text (PName "hop-by-hop"))) with (@None Z). cbv iota. reflexivity.
  - change (numeral_value (pval_text (PName "icmp6"))) with (@None Z). cbv iota. reflexivity.
Qed.
Definition stand_for (xs : list pval) (qs : list string) : Prop := Forall2 stands_for xs qs.
Lemma stand_plain xs qs : stand_for xs qs -> plain_words (map pval_text xs).
Proof.
  intros F s I. apply in_map_iff in I. destruct I as (x & <- & I). revert I. induction F as [|a q xs qs S F IH]; [intros []|].
  intros [<-|I]; [eapply stands_plain, S|auto].
Qed.
Lemma stand_says xs qs p : stand_for xs qs -> (exists w, In w (map pval_text xs) /\ protocol_word w p) <-> exists q, In q qs /\ p_proto p = q.
Proof.
  intros F. induction F as [|a q xs qs S F IH]; cbn [map In].
  - split; intros (w & [] & _).
  - split.
    + intros (w & [<-|I] & H); [exists q; split; [left; reflexivity|apply (stands_says _ _ _ S), H]|].
      destruct (proj1 IH) as (q' & J & E); [eauto|]. exists q'. auto.
    + intros (r & [<-|I] & H); [exists (pval_text a); split; [left; reflexivity|apply (stands_says _ _ _ S), H]|].
      destruct (proj2 IH) as (w & J & E); [eauto|]. exists w. auto.
Qed.
Lemma stand_replace a b xs qs : (forall q, stands_for (PName a) q -> stands_for (PName b) q) -> stand_for xs qs -> stand_for (replace_first a b xs) qs.
Proof.
  intros H F. induction F as [|x q xs qs S F IH]; cbn [replace_first]; [constructor|].
  destruct (pval_is a x) eqn:E; [|constructor; assumption]. constructor; [|exact F]. apply H.
  destruct x as [s|n]; [|discriminate E]. apply String.eqb_eq in E. subst s. exact S.
Qed.
Lemma hopopt_stands q : stands_for (PName "hopopt") q -> stands_for (PName "hop-by-hop") q.
Proof.
  intros (I & [E|[(_ & E)|[(_ & E)|(_ & E)]]]); try discriminate E. injection E as <-. split; [exact I|]. right. right. left. auto.
Qed.
Lemma icmpv6_stands q : stands_for (PName "icmpv6") q -> stands_for (PName "icmp6") q.
Proof.
  intros (I & [E|[(_ & E)|[(_ & E)|(_ & E)]]]); try discriminate E. injection E as <-. split; [exact I|]. right. right. right. auto.
Qed.
(** Removing one entry for a protocol that no packet of the family has. *)
Lemma stand_remove a xs qs : stand_for xs qs -> (forall q, stands_for (PName a) q -> q = a) ->
  exists qs', stand_for (remove_pval a xs) qs' /\ forall q, q <> a -> In q qs' <-> In q qs.
Proof.
  intros F H. induction F as [|x q xs qs S F (qs' & IH1 & IH2)]; cbn [remove_pval].
  - exists []. split; [constructor|]. reflexivity.
  - destruct (pval_is a x) eqn:E.
    + exists qs. split; [exact F|]. intros q' N. cbn [In]. split; [auto|]. intros [<-|I]; [|exact I]. exfalso. apply N, H.
      destruct x as [s|n]; [|discriminate E]. apply String.eqb_eq in E. subst s. exact S.
    + exists (q :: qs'). split; [constructor; assumption|]. intros q' N. cbn [In]. rewrite (IH2 q' N). reflexivity.
Qed.
Lemma init_stands ps xs : (forall q, In q ps -> In q (map fst proto_map)) -> juniper_init (map PName ps) = Ok xs -> stand_for xs ps.
Proof.
  intros H E. unfold juniper_init in E. destruct (forallb _ _); [|discriminate E]. apply ok_inj in E. subst xs.
  apply stand_replace; [apply hopopt_stands|]. induction ps as [|q ps IH]; cbn [map]; constructor.
  - split; [apply H; left; reflexivity|]. cbn [pval_is]. destruct (String.eqb q "ipip") eqn:X; [|left; reflexivity].
    apply String.eqb_eq in X. right. left. auto.
  - apply IH. intros r I. apply H. right. exact I.
Qed.

(** ** Addresses *)

Definition net_words (n : net) : stmt := Leaf [prefixlen_text n].
Definition except_words (n : net) : stmt := Leaf [prefixlen_text n; "except"].
Lemma prefix_length_text n : valid n -> prefix_length (prefixlen_text n) = Some (nlen n).
Proof.
  intros (Hl & _). unfold prefix_length, prefixlen_text. change (append "/" (dec (nlen n))) with (String "/" (dec (nlen n))).
  rewrite after_char_app by apply addr_text_noslash. cbn [after_char]. change (Ascii.eqb "/" "/") with true. cbv iota. apply dec_value. lia.
Qed.
(** The verdict of the longest prefix, on networks. *)
Definition of_ver (v : ver) (l : list net) : Prop := forall n, In n l -> valid n /\ nver n = v.
Lemma longest_match_iff v inc exc x : of_ver v inc -> of_ver v exc -> 0 <= x < 2 ^ width v ->
  longest_match v (map net_words inc ++ map except_words exc) x <-> longest inc exc (v, x).
Proof.
  intros Vi Ve Hx. unfold longest_match, longest.
  assert (T : forall n, valid n /\ nver n = v -> prefix_says v (prefixlen_text n) x <-> covers n (v, x)).
  { intros n (V & <-). apply prefix_text_says; assumption. }
  split.
  - intros (a & k & I & S & L & F). apply in_app_or in I. destruct I as [I|I]; apply in_map_iff in I; destruct I as (i & E & I); [|discriminate E].
    injection E as <-. exists i. split; [exact I|]. rewrite (prefix_length_text i) in L by (apply Vi, I). injection L as <-.
    split; [apply T, S; apply Vi, I|]. intros e J C. apply (F (prefixlen_text e)).
    + apply in_or_app. right. apply in_map_iff. exists e. auto.
    + apply T, C. apply Ve, J.
    + apply prefix_length_text. apply Ve, J.
  - intros (i & I & C & F). exists (prefixlen_text i), (nlen i). split; [apply in_or_app; left; apply in_map_iff; exists i; auto|].
    split; [apply T, C; apply Vi, I|]. split; [apply prefix_length_text, Vi, I|]. intros e m J S L.
    apply in_app_or in J. destruct J as [J|J]; apply in_map_iff in J; destruct J as (n & E & J); [discriminate E|].
    injection E as <-. rewrite (prefix_length_text n) in L by (apply Ve, J). injection L as <-. apply F; [exact J|]. apply T, S. apply Ve, J.
Qed.
Lemma minimize_longest inc exc x : (forall n, In n inc -> valid n) -> (forall n, In n exc -> valid n) ->
  let (i, e) := minimize_prefixes inc exc in longest i e x <-> longest inc exc x.
Proof.
  intros Vi Ve. unfold minimize_prefixes, longest.
  assert (Inc : forall n, In n (filter (fun ip => negb (existsb (net_eqb ip) exc)) inc) <-> In n inc /\ forall e, In e exc -> prefix_of n <> prefix_of e).
  { intros n. rewrite filter_In, negb_true_iff. split.
    - intros (I & E). split; [exact I|]. intros e J P. assert (X : existsb (net_eqb n) exc = true); [|congruence].
      apply existsb_exists. exists e. split; [exact J|]. apply net_eqb_spec; auto.
    - intros (I & E). split; [exact I|]. destruct (existsb (net_eqb n) exc) eqn:X; [|reflexivity]. apply existsb_exists in X.
      destruct X as (e & J & P). apply net_eqb_spec in P; auto. destruct (E e J P). }
  set (inc' := filter (fun ip => negb (existsb (net_eqb ip) exc)) inc) in *.
  split.
  - intros (i & I & C & F). apply Inc in I. destruct I as (I & N). exists i. split; [exact I|]. split; [exact C|]. intros e J Ce.
    destruct (Z_lt_le_dec (nlen e) (nlen i)) as [L|L]; [exact L|].
    apply F; [|exact Ce]. apply filter_In. split; [exact J|]. apply existsb_exists. exists i. split; [apply Inc; auto|].
    apply subnet_of_spec; auto. eapply nested; eauto.
  - intros (i & I & C & F). exists i. split.
    + apply Inc. split; [exact I|]. intros e J P. assert (Ce : covers e x) by (apply (prefix_covers _ _ P), C). specialize (F e J Ce).
      unfold prefix_of in P. injection P as _ _ P. lia.
    + split; [exact C|]. intros e J. apply filter_In in J. apply F. tauto.
Qed.
Lemma longest_side inc exc x : (forall n, In n inc -> valid n) -> (forall n, In n exc -> valid n) -> exclusions_inside inc exc ->
  longest inc exc x <-> covered inc x /\ ~ covered exc x.
Proof.
  intros Vi Ve Ex. split.
  - intros (i & I & C & F). split; [exists i; auto|]. intros (e & J & Ce). specialize (F e J Ce). exact (Ex i e x I J F C Ce).
  - intros ((i & I & C) & N). exists i. split; [exact I|]. split; [exact C|]. intros e J Ce. destruct N. exists e. auto.
Qed.
Lemma entry_renders c exclude n : valid n ->
  renders (entry_lines c exclude (prefixlen_text n, ntext n)) [if exclude then except_words n else net_words n].
Proof.
  intros V. pose proof (prefix_plain n V) as P. unfold entry_lines. cbn [fst snd].
  change [if exclude then except_words n else net_words n] with ([] ++ [if exclude then except_words n else net_words n]).
  apply renders_app; [apply address_comment_silent|]. apply renders_line. destruct exclude.
  - change (" except;")%string with (" " ++ "except;")%string. apply chunk_key; [exact P|]. apply chunk_lit; reflexivity.
  - apply (chunk_word_special _ ";"); [exact P|reflexivity].
Qed.
Lemma entries_renders c exclude l : (forall n, In n l -> valid n) ->
  renders (flat_map (entry_lines c exclude) (map (fun n => (prefixlen_text n, ntext n)) l)) (map (if exclude then except_words else net_words) l).
Proof.
  induction l as [|n l IH]; intros V; [apply renders_nil|]. cbn [map flat_map].
  change ((if exclude then except_words else net_words) n :: map (if exclude then except_words else net_words) l)
    with ([(if exclude then except_words else net_words) n] ++ map (if exclude then except_words else net_words) l).
  apply renders_app; [|apply IH; intros m I; apply V; right; exact I].
  destruct exclude; [apply (entry_renders c true n)|apply (entry_renders c false n)]; apply V; left; reflexivity.
Qed.
Lemma entries_stmt_ok (exclude : bool) l : (forall n, In n l -> valid n) -> forallb stmt_ok (map (if exclude then except_words else net_words) l) = true.
Proof.
  intros V. apply forallb_forall. intros s I. apply in_map_iff in I. destruct I as (n & <- & I).
  pose proof (plain_ok _ (prefix_plain n (V n I))) as P. destruct exclude; cbn [except_words net_words stmt_ok forallb]; rewrite P; reflexivity.
Qed.
Lemma kw_plain c key : filter_family (jc_type c) -> In key ["addr"; "saddr"; "daddr"; "protocol"; "protocol-except"] -> plain_word (kw c key).
Proof.
  intros T I. unfold kw. destruct T as [->|[-> | ->]]; cbn [In] in I; repeat (destruct I as [<-|I]; [apply plain_lit; reflexivity|]); destruct I.
Qed.
Lemma version_of_ver l v : valid_list l -> of_ver v (address_of_version l (Some v)).
Proof.
  intros V n I. unfold valid_list in V. rewrite Forall_forall in V. apply filter_In in I. split; [apply V, I|apply ver_eqb_iff, I].
Qed.
(** What a side of the from clause says. *)
Definition side_says (c : juniper_cfg) (k : string) (inc : list net) (P : Z -> Prop) (r : option (list string)) : Prop :=
  match r with
  | None => forall x, 0 <= x < 2 ^ width (j_ver c) -> inc <> [] /\ ~ P x
  | Some ls => (ls = [] /\ forall x, P x) \/
      exists body, renders ls [Block [k] body] /\ stmt_ok (Block [k] body) = true /\
        forall x, 0 <= x < 2 ^ width (j_ver c) -> longest_match (j_ver c) body x <-> P x
  end.
Lemma minimize_sub inc exc : let (i, e) := minimize_prefixes inc exc in (forall n, In n i -> In n inc) /\ (forall n, In n e -> In n exc).
Proof. unfold minimize_prefixes. split; intros n I; apply filter_In in I; apply I. Qed.
Lemma side_block_says c key inc exc r : In key ["saddr"; "daddr"] -> jc_dsmo c = false -> filter_family (jc_type c) -> juniper_side inc exc ->
  side_block c key inc exc = Ok r -> side_says c (kw c key) inc (fun x => side_matches inc exc (j_ver c, x)) r.
Proof.
  intros Hk D T (Vi & Ve & Nx & Ex) H. assert (Hk' : In key ["addr"; "saddr"; "daddr"; "protocol"; "protocol-except"]) by (cbn [In] in Hk |- *; tauto). unfold side_block in H. rewrite D in H. unfold entries in H. rewrite D in H.
  set (a := address_of_version inc (Some (j_ver c))) in *. set (x := address_of_version exc (Some (j_ver c))) in *.
  assert (Va : of_ver (j_ver c) a) by (apply version_of_ver, Vi). assert (Vx : of_ver (j_ver c) x) by (apply version_of_ver, Ve).
  assert (Exv : exclusions_inside a x).
  { intros i e y I J L C1 C2. apply filter_In in I, J. exact (Ex i e y (proj1 I) (proj1 J) L C1 C2). }
  pose proof (minimize_sub a x) as Sub. pose proof (fun z => minimize_longest a x z (fun n I => proj1 (Va n I)) (fun n I => proj1 (Vx n I))) as Min.
  destruct (minimize_prefixes a x) as (a', x') eqn:Em. destruct Sub as (Sa & Sx).
  assert (Va' : of_ver (j_ver c) a') by (intros n I; apply Va, Sa, I). assert (Vx' : of_ver (j_ver c) x') by (intros n I; apply Vx, Sx, I).
  assert (Sem : forall z, longest a' x' (j_ver c, z) <-> covered inc (j_ver c, z) /\ ~ covered exc (j_ver c, z)).
  { intros z. rewrite Min, longest_side; [|intros n I; apply Va, I|intros n I; apply Vx, I|exact Exv].
    unfold a, x. rewrite !covered_version. reflexivity. }
  cbn [bind] in H. unfold some at 1 in H. destruct a' as [|n0 a0]; cbn [map] in H.
  - destruct inc as [|i0 inc0]; cbn [some] in H; apply ok_inj in H; subst r; unfold side_says.
    + left. split; [reflexivity|]. intros z. rewrite (Nx eq_refl). split; [left; reflexivity|]. intros (e & [] & _).
    + intros z Hz. split; [discriminate|]. intros ([E|Cv] & Nc); [discriminate E|]. destruct (proj2 (Sem z) (conj Cv Nc)) as (i & [] & _).
  - apply ok_inj in H. subst r. unfold side_says. right. rewrite <- (map_cons (fun n => (prefixlen_text n, ntext n))).
    set (l := n0 :: a0) in *. exists (map net_words l ++ map except_words x'). split; [|split].
    + replace (flat_map (entry_lines c false) (map (fun n => (prefixlen_text n, ntext n)) l) ++
        flat_map (entry_lines c true) (map (fun n => (prefixlen_text n, ntext n)) x') ++ ["}"])
      with ((flat_map (entry_lines c false) (map (fun n => (prefixlen_text n, ntext n)) l) ++
        flat_map (entry_lines c true) (map (fun n => (prefixlen_text n, ntext n)) x')) ++ ["}"]) by (rewrite <- app_assoc; reflexivity).
      apply renders_block.
      * cbn [app]. change [kw c key; "{"] with ([kw c key] ++ ["{"]). change (" {")%string with (" " ++ "{")%string.
        apply chunk_key; [exact (kw_plain _ _ T Hk')|]. apply chunk_lit; reflexivity.
      * apply renders_app; [apply (entries_renders c false)|apply (entries_renders c true)]; intros n I; [apply Va', I|apply Vx', I].
    + cbn [stmt_ok forallb]. rewrite (plain_ok _ (kw_plain c key T Hk')), forallb_app. rewrite (entries_stmt_ok false l), (entries_stmt_ok true x');
        [reflexivity|intros n I; apply Vx', I|intros n I; apply Va', I].
    + intros z Hz. rewrite longest_match_iff by assumption. rewrite Sem. unfold side_matches. split; [tauto|].
      intros ([E|Cv] & Nc); [|tauto]. exfalso. subst inc. exact (Sa n0 (or_introl eq_refl)).
Qed.
Lemma side_section c v p key x inc exc ls : In key ["saddr"; "daddr"] -> j_ver c = v -> jc_dsmo c = false -> filter_family (jc_type c) -> juniper_side inc exc ->
  side_block c key inc exc = Ok (Some ls) -> 0 <= x < 2 ^ width v ->
  (forall body, holds v p (Block [kw c key] body) = longest_match v body x) ->
  section v p ls (side_matches inc exc (v, x)).
Proof.
  intros Hk <- D T S H Hx E. apply (side_block_says c key inc exc _ Hk D T S) in H. destruct H as [(-> & P)|(body & R & O & P)].
  - apply section_true, P.
  - exists [Block [kw c key] body]. split; [exact R|]. split; [cbn [forallb]; rewrite O; reflexivity|].
    rewrite <- P by exact Hx. rewrite <- E. split; [intros H; apply H; left; reflexivity|intros H s [<-|[]]; exact H].
Qed.
Lemma side_none c key x inc exc : In key ["saddr"; "daddr"] -> jc_dsmo c = false -> filter_family (jc_type c) -> juniper_side inc exc ->
  side_block c key inc exc = Ok None -> 0 <= x < 2 ^ width (j_ver c) -> ~ side_matches inc exc (j_ver c, x).
Proof. intros Hk D T S H Hx. apply (side_block_says c key inc exc _ Hk D T S) in H. apply (H x Hx). Qed.

Lemma either_block_says c p l r : jc_dsmo c = false -> filter_family (jc_type c) -> valid_list l ->
  fst (p_src p) = j_ver c -> fst (p_dst p) = j_ver c -> 0 <= snd (p_src p) < 2 ^ width (j_ver c) -> 0 <= snd (p_dst p) < 2 ^ width (j_ver c) ->
  either_block c l = Ok r ->
  match r with
  | None => ~ either_matches l [] (p_src p) (p_dst p)
  | Some ls => section (j_ver c) p ls (either_matches l [] (p_src p) (p_dst p))
  end.
Proof.
  intros D T V Fs Fd Hs Hd H. unfold either_block, entries in H. rewrite D in H. cbn [bind] in H.
  set (a := address_of_version l (Some (j_ver c))) in *. assert (Va : of_ver (j_ver c) a) by (apply version_of_ver, V).
  assert (Sem : forall z, longest a [] (j_ver c, z) <-> covered l (j_ver c, z)).
  { intros z. unfold a. rewrite <- covered_version. split; [intros (i & I & C & _); exists i; auto|intros (i & I & C); exists i; split; [exact I|split; [exact C|intros e []]]]. }
  assert (Em : either_matches l [] (p_src p) (p_dst p) <-> l = [] \/ covered l (p_src p) \/ covered l (p_dst p)).
  { unfold either_matches, side_matches. assert (N : forall y, ~ covered [] y) by (intros y (e & [] & _)). pose proof (N (p_src p)). pose proof (N (p_dst p)). tauto. }
  assert (Es : p_src p = (j_ver c, snd (p_src p))) by (rewrite <- Fs; apply surjective_pairing).
  assert (Ed : p_dst p = (j_ver c, snd (p_dst p))) by (rewrite <- Fd; apply surjective_pairing).
  unfold some at 1 in H. destruct a as [|n0 a0] eqn:Ea; cbn [map] in H.
  - destruct l as [|i0 l0]; cbn [some] in H; apply ok_inj in H; subst r.
    + apply section_true. rewrite Em. auto.
    + rewrite Em, Es, Ed, <- !Sem. intros [E|[(i & [] & _)|(i & [] & _)]]; discriminate E.
  - apply ok_inj in H. subst r. rewrite <- (map_cons (fun n => (prefixlen_text n, ntext n))). rewrite <- Ea in *.
    eapply section_iff; [rewrite Em; reflexivity|].
    exists [Block [kw c "addr"] (map net_words a ++ map except_words [])]. split; [|split].
    + apply renders_block.
      * change ([kw c "addr"] ++ ["{"]) with (kw c "addr" :: ["{"]). change (" {")%string with (" " ++ "{")%string. apply chunk_key; [apply (kw_plain _ _ T); left; reflexivity|]. apply chunk_lit; reflexivity.
      * cbn [map]. rewrite app_nil_r. apply (entries_renders c false). intros n I. apply Va, I.
    + cbn [forallb stmt_ok map]. rewrite (plain_ok _ (kw_plain c "addr" T (or_introl eq_refl))), app_nil_r, (entries_stmt_ok false a); [reflexivity|intros n I; apply Va, I].
    + assert (Ek : forall body, holds (j_ver c) p (Block [kw c "addr"] body) = (longest_match (j_ver c) body (snd (p_src p)) \/ longest_match (j_ver c) body (snd (p_dst p))))
        by (intros body; unfold kw; destruct T as [->|[-> | ->]]; reflexivity).
      set (body := map net_words a ++ map except_words []).
      assert (Hb : forall z, 0 <= z < 2 ^ width (j_ver c) -> longest_match (j_ver c) body z <-> covered l (j_ver c, z)).
      { intros z Hz. unfold body. rewrite longest_match_iff; [apply Sem|exact Va|intros n []|exact Hz]. }
      assert (Nl : l <> []) by (intros ->; discriminate Ea).
      split.
      * intros H. assert (X : holds (j_ver c) p (Block [kw c "addr"] body)) by (apply H; left; reflexivity). rewrite Ek in X.
        rewrite !Hb in X by assumption. rewrite Es, Ed. tauto.
      * intros H s [<-|[]]. rewrite Ek.
        rewrite !Hb by assumption. rewrite Es, Ed in H. tauto.
Qed.

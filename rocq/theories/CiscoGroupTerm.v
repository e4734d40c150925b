(** The lines of a term with object groups match what the term matches. *)
From Coq Require Import Lia ZifyBool ZifyNat.
From Verif Require Import SpecCiscoRules SpecSum IPFacts BaseFacts PyStrFacts TextProofs WrapProofs PortProofs GenProofs CiscoProofs CiscoProofs2 CiscoTerm CiscoAcl CiscoDup CiscoGroupRead JuniperText.
Local Open Scope string_scope.
Local Open Scope list_scope.
Local Open Scope Z_scope.

(** ** Words of a line *)
Lemma split_ws_blanks b : forall_char is_ws b = true -> forall cur, split_ws_aux b cur = if is_empty cur then [] else [cur].
Proof.
  induction b as [|c b IH]; intros H cur; [reflexivity|]. cbn [forall_char] in H. apply andb_true_iff in H. destruct H as (C & H).
  cbn [split_ws_aux]. rewrite C, (IH H ""). cbn [is_empty]. destruct (is_empty cur); reflexivity.
Qed.
Lemma split_ws_aux_end a b : forall_char is_ws b = true -> forall cur, split_ws_aux (a ++ b)%string cur = split_ws_aux a cur.
Proof.
  intros H. induction a as [|c a IH]; intros cur; cbn [append split_ws_aux].
  - apply split_ws_blanks, H.
  - rewrite !IH. reflexivity.
Qed.
Lemma split_ws_rstrip s : split_ws (rstrip s) = split_ws s.
Proof. destruct (rstrip_blank s) as (b & E & W). unfold split_ws. rewrite E at 2. rewrite split_ws_aux_end by exact W. reflexivity. Qed.
Lemma rstrip_line s : has_char newline s = false -> has_char newline (rstrip s) = false.
Proof. intros H. destruct (rstrip_blank s) as (b & E & _). rewrite E, has_char_app in H. apply orb_false_iff in H. apply H. Qed.
Definition side_words (l : list net) : list string := match l with [] => ["any"] | _ => ["net-group"; first_name l] end.
Definition port_words (o : option prange) : list string := match o with Some r => ["port-group"; port_key r] | None => [] end.
Lemma side_text_words v l : side_ok v l -> split_ws (side_text (side_name l)) = side_words l /\ has_char newline (side_text (side_name l)) = false.
Proof.
  intros (_ & W & _). destruct l as [|n l]; [split; reflexivity|]. destruct (W ltac:(discriminate)) as (W1 & W2).
  cbn [side_name first_name side_words] in *. unfold side_text. destruct (word_no_ws _ W1) as (W3 & W4).
  assert (E : is_empty (nptoken n) = false) by (destruct (nptoken n); [congruence|reflexivity]). rewrite E, (eqb_neq' _ _ W2). cbn [negb andb].
  split.
  - rewrite (split_ws_space "net-group" (nptoken n) : split_ws ("net-group " ++ nptoken n)%string = _), W1. reflexivity.
  - rewrite has_char_app, (word_line _ W1). reflexivity.
Qed.
Definition oport_good (o : option prange) : Prop := match o with Some r => 0 <= fst r /\ 0 <= snd r | None => True end.
Lemma port_text_line o : oport_good o -> has_char newline (port_text o) = false.
Proof.
  intros G. destruct o as [r|]; cbn [port_text]; [|reflexivity]. destruct G as (A & B).
  rewrite has_char_app, (word_line _ (port_key_word r A B)). reflexivity.
Qed.
Lemma termlet_text v action proto l sp l' dp : one_word action -> one_word proto -> side_ok v l -> side_ok v l' -> oport_good sp -> oport_good dp ->
  split_ws (group_termlet action proto (side_name l) sp (side_name l') dp) = action :: proto :: side_words l ++ port_words sp ++ side_words l' ++ port_words dp /\
  has_char newline (group_termlet action proto (side_name l) sp (side_name l') dp) = false.
Proof.
  intros Wa Wp Sl Sl' Gs Gd. destruct (side_text_words v l Sl) as (T1 & N1). destruct (side_text_words v l' Sl') as (T2 & N2).
  unfold group_termlet. split.
  - rewrite split_ws_rstrip. change (" " ++ ?x)%string with (String " " x) at 1. rewrite split_ws_lead.
    rewrite split_ws_space, Wa. cbn [app]. f_equal. rewrite split_ws_space, Wp. cbn [app]. f_equal.
    assert (E : forall a o s, oport_good o -> split_ws (a ++ port_text o ++ " " ++ s)%string = split_ws a ++ port_words o ++ split_ws s).
    { intros a o s G. destruct o as [r|]; cbn [port_text port_words].
      - destruct G as (A & B). change (" port-group " ++ port_key r)%string with (" " ++ ("port-group" ++ " " ++ port_key r))%string.
        transitivity (split_ws (a ++ " " ++ ("port-group" ++ " " ++ (port_key r ++ " " ++ s)))%string); [rewrite !str_app_assoc; reflexivity|].
        rewrite !split_ws_space, (port_key_word r A B). reflexivity.
      - cbn [append]. apply split_ws_space. }
    rewrite E by exact Gs. rewrite T1. f_equal. f_equal.
    transitivity (split_ws (side_text (side_name l') ++ port_text dp ++ " " ++ "")%string).
    + rewrite <- str_app_assoc. unfold split_ws. rewrite (split_ws_aux_end _ (" " ++ "")%string) by reflexivity. reflexivity.
    + rewrite E by exact Gd. rewrite T2. cbn. rewrite app_nil_r. reflexivity.
  - apply rstrip_line. rewrite !has_char_app, (word_line _ Wa), (word_line _ Wp), N1, N2, (port_text_line sp Gs), (port_text_line dp Gd). reflexivity.
Qed.

(** ** Reading the words *)
Definition name_words (o : option string) : list string := match o with Some n => ["net-group"; n] | None => ["any"] end.
Definition name_pred (items : list citem) (v : ver) (o : option string) : Z -> Prop := match o with Some n => group_says items v n | None => fun _ => True end.
Definition side_opt (l : list net) : option string := match l with [] => None | _ => Some (first_name l) end.
Lemma side_words_name l : side_words l = name_words (side_opt l). Proof. destruct l; reflexivity. Qed.
Definition side_pred (items : list citem) (v : ver) (l : list net) : Z -> Prop := match l with [] => fun _ => True | _ => group_says items v (first_name l) end.
Definition port_pred (items : list citem) (o : option prange) : Z -> Prop := match o with Some r => port_group_says items (port_key r) | None => fun _ => True end.
Lemma read_side_words items v o r : read_side items v (name_words o ++ r) = Some (name_pred items v o, r).
Proof. destruct o as [n|]; [reflexivity|]. destruct r; reflexivity. Qed.
Lemma read_port_words items o l r : read_side_port items (port_words o ++ name_words l ++ r) = (port_pred items o, name_words l ++ r).
Proof. destruct o as [q|]; [reflexivity|]. destruct l as [n|]; [destruct r as [|a r]; reflexivity|destruct r as [|a [|b r]]; reflexivity]. Qed.
Lemma read_port_end items o : read_side_port items (port_words o) = (port_pred items o, []).
Proof. destruct o as [q|]; reflexivity. Qed.
Lemma name_rule_words items v act action proto s sp d dp p :
  rule_matches items v act (action :: proto :: name_words s ++ port_words sp ++ name_words d ++ port_words dp) p <->
  action = act /\ In action ["permit"; "deny"] /\ protocol_says v proto p /\ name_pred items v s (snd (p_src p)) /\ port_pred items sp (p_sport p) /\
  name_pred items v d (snd (p_dst p)) /\ port_pred items dp (p_dport p).
Proof.
  unfold rule_matches. rewrite read_side_words, read_port_words, read_side_words, read_port_end. cbn [read_number type_says code_says options_say]. tauto.
Qed.
Lemma rule_words items v act action proto l sp l' dp p :
  rule_matches items v act (action :: proto :: side_words l ++ port_words sp ++ side_words l' ++ port_words dp) p <->
  action = act /\ In action ["permit"; "deny"] /\ protocol_says v proto p /\ side_pred items v l (snd (p_src p)) /\ port_pred items sp (p_sport p) /\
  side_pred items v l' (snd (p_dst p)) /\ port_pred items dp (p_dport p).
Proof. rewrite !side_words_name, name_rule_words. destruct l, l'; reflexivity. Qed.
(** The lines of access lists: nothing, a remark, or a rule *)
Definition shaped (ws : list string) : Prop :=
  ws = [] \/ (exists r, ws = "remark" :: r) \/
  exists a proto s sp d dp, a <> "net-group" /\ proto <> "net-group" /\ oport_good sp /\ oport_good dp /\ ws = a :: proto :: name_words s ++ port_words sp ++ name_words d ++ port_words dp.

(** ** Protocols *)
Definition group_entry (k : cisco_class) (p : pval) : option pval :=
  match p with
  | PName s => if str_in s (k_group_protos k) then Some (PName s) else match assoc s proto_map with Some n => Some (PNum n) | None => None end
  | PNum n => if n =? 4 then Some (PNum n) else None
  end.
Lemma entry_says k v q p : In k [class_ios; class_xr; class_nx] -> In q (map fst proto_map) -> q <> "all" -> (v = V6 -> q <> "icmp") ->
  one_word (proto_text (group_entry k (named_pval q))) /\ (protocol_says v (proto_text (group_entry k (named_pval q))) p <-> p_proto p = q).
Proof.
  intros Hk I Na Ni. unfold one_word.
  destruct Hk as [<-|[<-|[<-|[]]]]; simpl in I; (repeat (destruct I as [<-|I]; [
        first [congruence | split; [reflexivity|];
          first [ apply says_name; [reflexivity|reflexivity|discriminate|assumption]
                | apply says_name; [reflexivity|reflexivity|discriminate|discriminate]
                | eapply says_num; [reflexivity|reflexivity|apply assoc_in; reflexivity]]]|])); destruct I.
Qed.

Lemma entry_word k q : In k [class_ios; class_xr; class_nx] -> In q (map fst proto_map) -> q <> "all" ->
  one_word (proto_text (group_entry k (named_pval q))) /\ proto_text (group_entry k (named_pval q)) <> "net-group".
Proof.
  intros Hk I Na. unfold one_word. destruct Hk as [<-|[<-|[<-|[]]]]; simpl in I; (repeat (destruct I as [<-|I]; [split; [reflexivity|discriminate]|])); destruct I.
Qed.

(** ** Groups *)
Record knows (items : list citem) (v : ver) (L : list net -> Prop) (R : prange -> Prop) : Prop := {
  kn_from : forall n ls, In (CGroup (family_name v) n ls) items -> exists l, L l /\ address_of_version l (Some v) <> [] /\ n = first_name l /\ ls = member_lines v l;
  kn_net : forall l, L l -> address_of_version l (Some v) <> [] -> net_named v (first_name l) items;
  kn_ports : forall n ls, In (CPorts n ls) items -> exists r, 0 <= fst r /\ 0 <= snd r /\ n = port_key r /\ ls = [port_line r];
  kn_port : forall r, R r -> port_named (port_key r) items;
  kn_valid : forall l, L l -> valid_list l;
  kn_same : forall l l' x, L l -> L l' -> l <> [] -> l' <> [] -> first_name l = first_name l' -> covered l (v, x) -> covered l' (v, x) }.
Lemma member_lines_say v l x : valid_list l -> 0 <= x < 2 ^ width v ->
  ((exists line, In line (member_lines v l) /\ member_says v line x) <-> covered l (v, x)).
Proof.
  intros V Hx. rewrite <- covered_version. destruct (version_valid l v V) as (V' & F). unfold valid_list in V'. rewrite Forall_forall in V', F.
  assert (S : forall m, In m (address_of_version l (Some v)) ->
    (member_says v (" " ++ addr_text (nver m) (naddr m) ++ "/" ++ dec (nlen m))%string x <-> covers m (v, x))).
  { intros m I. pose proof (V' m I) as Vm. pose proof (F m I) as Fm.
    change (addr_text (nver m) (naddr m) ++ "/" ++ dec (nlen m))%string with (prefixlen_text m).
    assert (W : split_ws (" " ++ prefixlen_text m)%string = [prefixlen_text m]).
    { change (" " ++ prefixlen_text m)%string with (String " " (prefixlen_text m)). rewrite split_ws_lead. apply split_ws_word.
      - unfold no_ws, prefixlen_text. rewrite !forall_char_app. rewrite (addr_text_no_ws (nver m) (naddr m) : forall_char _ _ = true).
        destruct Vm as (Hl & _). rewrite (dec_no_ws (nlen m) ltac:(lia) : forall_char _ _ = true). reflexivity.
      - unfold prefixlen_text. destruct (addr_text (nver m) (naddr m)); discriminate. }
    unfold member_says. rewrite W. rewrite <- Fm in Hx |- *. pose proof (prefix_text_says m x Vm Hx) as P. split.
    - intros (w & E & Q). assert (w = prefixlen_text m) as -> by (symmetry; exact (f_equal (hd "") E)). apply P, Q.
    - intros Q. exists (prefixlen_text m). split; [reflexivity|apply P, Q]. }
  split.
  - intros (line & I & M). unfold member_lines in I. apply in_map_iff in I. destruct I as (m & <- & I). exists m. split; [exact I|]. apply S; assumption.
  - intros (m & I & C). eexists. split; [unfold member_lines; apply in_map, I|]. apply S; assumption.
Qed.
Lemma covers_first v l x : covered l (v, x) -> address_of_version l (Some v) <> [].
Proof. intros C E. rewrite <- covered_version, E in C. destruct C as (n & [] & _). Qed.
Lemma version_some v l : address_of_version l (Some v) <> [] -> l <> [].
Proof. intros H ->. apply H. reflexivity. Qed.
Lemma group_pred_spec items v L R l x : knows items v L R -> L l -> address_of_version l (Some v) <> [] -> 0 <= x < 2 ^ width v ->
  (group_says items v (first_name l) x <-> covered l (v, x)).
Proof.
  intros K Ll Nl Hx. split.
  - intros (ls & line & I & J & M). destruct (kn_from _ _ _ _ K _ _ I) as (l' & Ll' & Nl' & E & ->).
    assert (C : covered l' (v, x)) by (apply (member_lines_say v l' x (kn_valid _ _ _ _ K l' Ll') Hx); eauto).
    apply (kn_same _ _ _ _ K l' l x Ll' Ll (version_some _ _ Nl') (version_some _ _ Nl) (eq_sym E) C).
  - intros C. destruct (kn_net _ _ _ _ K l Ll Nl) as (ls & I). destruct (kn_from _ _ _ _ K _ _ I) as (l' & Ll' & Nl' & E & ->).
    assert (C' : covered l' (v, x)) by exact (kn_same _ _ _ _ K l l' x Ll Ll' (version_some _ _ Nl) (version_some _ _ Nl') E C).
    apply (member_lines_say v l' x (kn_valid _ _ _ _ K l' Ll') Hx) in C'. destruct C' as (line & J & M). exists (member_lines v l'), line. auto.
Qed.
Lemma dec_no_dash n : 0 <= n -> has_char "-" (dec n) = false.
Proof.
  intros H. pose proof (dec_digits n H) as D. induction (dec n) as [|c s IH]; [reflexivity|]. cbn [forall_char has_char] in *.
  apply andb_true_iff in D. destruct D as (D1 & D2). rewrite (IH D2). destruct (Ascii.eqb c "-") eqn:E; [|reflexivity].
  apply Ascii.eqb_eq in E. subst c. discriminate D1.
Qed.
Lemma port_key_inj r q : 0 <= fst r -> 0 <= snd r -> 0 <= fst q -> 0 <= snd q -> port_key r = port_key q -> r = q.
Proof.
  intros A B C D E. unfold port_key in E.
  assert (E1 : dec (fst r) = dec (fst q)).
  { pose proof (f_equal (before_char "-") E) as X. rewrite (before_char_app "-" (dec (fst r)) _ (dec_no_dash _ A)), (before_char_app "-" (dec (fst q)) _ (dec_no_dash _ C)) in X.
    cbn in X. rewrite !str_app_nil in X. exact X. }
  assert (E2 : dec (snd r) = dec (snd q)).
  { pose proof (f_equal (after_char "-") E) as X. rewrite (after_char_app "-" (dec (fst r)) _ (dec_no_dash _ A)), (after_char_app "-" (dec (fst q)) _ (dec_no_dash _ C)) in X. exact X. }
  apply (f_equal numeral_value) in E1, E2. rewrite !dec_value in E1, E2 by assumption. destruct r, q. cbn [fst snd] in *. congruence.
Qed.
Lemma port_line_says r x : 0 <= fst r -> 0 <= snd r -> (port_says (port_line r) x <-> SpecPorts.in_range r x).
Proof.
  intros A B. assert (W : split_ws (port_line r) = split_ws (format_port (Some r))).
  { destruct r as [lo hi]. unfold port_line, format_port. cbn [fst snd]. destruct (lo =? hi); cbn [negb];
      match goal with |- split_ws (" range " ++ ?y)%string = _ => change (" range " ++ y)%string with (String " " ("range " ++ y)%string)
                    | |- split_ws (" eq " ++ ?y)%string = _ => change (" eq " ++ y)%string with (String " " ("eq " ++ y)%string) end; rewrite split_ws_lead; reflexivity. }
  unfold port_says. rewrite W. destruct (read_port_text (Some r) [] (conj A B) Logic.I) as (P & E & S). rewrite app_nil_r in E. rewrite E. cbn [fst snd].
  cbn [oport_covers] in S. rewrite S. split; [tauto|]. intros H. split; [|auto]. intros N.
  rewrite N in E. cbn in E. destruct r as [lo hi]. unfold format_port in N. destruct (lo =? hi).
  - change (append "eq " (dec lo)) with ("eq" ++ " " ++ dec lo)%string in N. rewrite split_ws_space in N. discriminate N.
  - change (append "range " ?y) with ("range" ++ " " ++ y)%string in N. rewrite split_ws_space in N. discriminate N.
Qed.
Lemma port_pred_spec items v L R r x : knows items v L R -> R r -> 0 <= fst r -> 0 <= snd r ->
  (port_group_says items (port_key r) x <-> SpecPorts.in_range r x).
Proof.
  intros K Rr A B. split.
  - intros (ls & line & I & J & M). destruct (kn_ports _ _ _ _ K _ _ I) as (q & A' & B' & E & ->). apply port_key_inj in E; try assumption. subst q.
    destruct J as [<-|[]]. apply port_line_says in M; assumption.
  - intros M. destruct (kn_port _ _ _ _ K r Rr) as (ls & I). destruct (kn_ports _ _ _ _ K _ _ I) as (q & A' & B' & E & ->).
    apply port_key_inj in E; try assumption. subst q. exists [port_line r], (port_line r). split; [exact I|]. split; [left; reflexivity|]. apply port_line_says; assumption.
Qed.
Lemma ports_pred items v L R ports x : knows items v L R -> (forall r, In r ports -> R r /\ 0 <= fst r /\ 0 <= snd r) ->
  ((exists o, In o (group_ports ports) /\ port_pred items o x) <-> ports_match ports x).
Proof.
  intros K P. unfold ports_match, group_ports. destruct ports as [|r0 ports].
  - cbn [some]. split; [left; reflexivity|]. intros _. exists None. split; [left; reflexivity|exact Logic.I].
  - cbn [some]. set (l := r0 :: ports) in *. split.
    + intros (o & I & M). right. apply in_map_iff in I. destruct I as (r & <- & I). exists r. split; [exact I|]. destruct (P r I) as (A & B & C).
      exact (proj1 (port_pred_spec _ _ _ _ _ _ K A B C) M).
    + intros [E|(r & I & M)]; [discriminate E|]. exists (Some r). split; [apply in_map, I|]. destruct (P r I) as (A & B & C).
      exact (proj2 (port_pred_spec _ _ _ _ _ _ K A B C) M).
Qed.
Lemma side_pred_spec items v L R l x : knows items v L R -> L l -> has_addresses (af_of v) l = true -> 0 <= x < 2 ^ width v ->
  (side_pred items v l x <-> side_matches l [] (v, x)).
Proof.
  intros K Ll H Hx. unfold side_matches. destruct l as [|n l].
  - cbn [side_pred]. split; [|tauto]. intros _. split; [left; reflexivity|]. intros (m & [] & _).
  - cbn [side_pred]. set (l' := n :: l) in *. unfold has_addresses in H. rewrite version_af in H. cbn [some negb orb] in H.
    rewrite (group_pred_spec items v L R l' x K Ll); [|intros E; unfold l' in *; rewrite E in H; discriminate H|exact Hx]. split.
    + intros C. split; [right; exact C|]. intros (m & [] & _).
    + intros ([E|C] & _); [discriminate E|exact C].
Qed.
Lemma no_addresses v l x : has_addresses (af_of v) l = false -> ~ side_matches l [] (v, x).
Proof.
  intros H ([E|C] & _).
  - subst l. discriminate H.
  - apply covers_first in C. unfold has_addresses in H. rewrite version_af in H. apply orb_false_iff in H. destruct H as (_ & H).
    destruct (address_of_version l (Some v)); [congruence|discriminate H].
Qed.

(** ** Terms *)
Lemma comment_line l x : In x (wrap_words l 70 lf) -> has_char newline x = false.
Proof.
  intros I. unfold wrap_words in I. apply in_flat_map in I. destruct I as (s & _ & I). apply in_map_iff in I. destruct I as (y & <- & I).
  apply filter_In in I. destruct I as (I & _). rewrite (split_str_newline _ : split_str lf _ = _) in I. apply piece_infix in I. destruct I as (_ & N).
  destruct (strip_infix y) as (a & b & E). rewrite E in N. rewrite !has_char_app in N. apply orb_false_iff in N. destruct N as (_ & N).
  apply orb_false_iff in N. apply N.
Qed.
Lemma remark_words s : exists r, split_ws (" remark " ++ s)%string = "remark" :: r.
Proof.
  change (" remark " ++ s)%string with (String " " ("remark" ++ " " ++ s)). rewrite split_ws_lead, split_ws_space. eexists. reflexivity.
Qed.
Lemma remark_no_match items v act r p : ~ rule_matches items v act ("remark" :: r) p.
Proof. destruct r as [|x r]; [intros []|]. intros (_ & [E|[E|[]]] & _); discriminate E. Qed.
Definition remark_lines (ls : list string) : Prop := Forall (fun l => exists s, l = (" remark " ++ s)%string /\ has_char newline l = false) ls.
Lemma remarks_plain ls : remark_lines ls -> lns ls = ls.
Proof. intros F. unfold remark_lines in F. rewrite Forall_forall in F. apply lns_plain. intros x I. destruct (F x I) as (s & _ & N). exact N. Qed.
Lemma remarks_quiet items v ls p act ws : remark_lines ls -> In ws (words_of ls) -> ~ rule_matches items v act ws p.
Proof.
  intros F I. unfold words_of in I. apply filter_In in I. destruct I as (I & _). apply in_map_iff in I. destruct I as (l & <- & I).
  unfold remark_lines in F. rewrite Forall_forall in F. destruct (F l I) as (s & -> & _). destruct (remark_words s) as (r & ->). apply remark_no_match.
Qed.
Lemma remarks_shape ls : remark_lines ls -> Forall (fun l => shifted l \/ l = "") ls.
Proof. apply Forall_impl. intros l (s & -> & _). left. eexists. reflexivity. Qed.
Lemma remarks_shaped ls : remark_lines ls -> Forall (fun l => (shifted l \/ l = "") /\ shaped (split_ws l)) ls.
Proof. apply Forall_impl. intros l (s & -> & _). split; [left; eexists; reflexivity|]. right. left. apply remark_words. Qed.
Definition term_remarks (verbose : bool) (t : term) : list string :=
  if verbose then (" remark " ++ t_name t)%string :: (match wrap_words (t_comment t) 70 lf with c :: _ => if is_empty c then [] else map (append " remark ") (wrap_words (t_comment t) 70 lf) | [] => [] end) else [].
Lemma term_remarks_ok verbose t : has_char newline (t_name t) = false -> remark_lines (term_remarks verbose t).
Proof.
  intros N. unfold term_remarks. destruct verbose; [|constructor]. constructor.
  - exists (t_name t). split; [reflexivity|]. rewrite has_char_app, N. reflexivity.
  - assert (F : remark_lines (map (append " remark ") (wrap_words (t_comment t) 70 lf))).
    { apply Forall_forall. intros l I. apply in_map_iff in I. destruct I as (x & <- & I). exists x. split; [reflexivity|].
      rewrite has_char_app, (comment_line _ _ I). reflexivity. }
    destruct (wrap_words (t_comment t) 70 lf) as [|c r]; [constructor|]. destruct (is_empty c); [constructor|exact F].
Qed.
Lemma group_protocols_shape k v ps p : In k [class_ios; class_xr; class_nx] ->
  (forall q, In q ps -> In q (map fst proto_map) /\ q <> "all" /\ (v = V6 -> q <> "icmp")) ->
  (forall e, In e (group_protocols k (af_of v) (map named_pval ps)) -> one_word (proto_text e)) /\
  ((exists e, In e (group_protocols k (af_of v) (map named_pval ps)) /\ protocol_says v (proto_text e) p) <-> any_or ps (eq (p_proto p))).
Proof.
  intros Hk Hq. destruct ps as [|q0 ps].
  - cbn [map group_protocols]. destruct v; destruct Hk as [<-|[<-|[<-|[]]]];
      (split; [intros e [<-|[]]; reflexivity|]; split; [left; reflexivity|]; intros _; eexists; split; [left; reflexivity|cbn; tauto]).
  - set (l := q0 :: ps) in *.
    assert (E : group_protocols k (af_of v) (map named_pval l) = map (group_entry k) (map named_pval l)) by reflexivity.
    rewrite E, map_map. split.
    + intros e I. apply in_map_iff in I. destruct I as (q & <- & I). destruct (Hq q I) as (A & B & C). apply (entry_says k v q p Hk A B C).
    + split.
      * intros (e & I & S). apply in_map_iff in I. destruct I as (q & <- & I). destruct (Hq q I) as (A & B & C). right. exists q. split; [exact I|].
        apply (entry_says k v q p Hk A B C), S.
      * intros [X|(q & I & X)]; [discriminate X|]. destruct (Hq q I) as (A & B & C). eexists. split; [apply in_map, I|].
        apply (entry_says k v q p Hk A B C), X.
Qed.
Lemma action_verdict t : (exists a r, t_action t = a :: r /\ In a ["accept"; "deny"; "reject"; "reject-with-tcp-rst"]) ->
  exists a r, t_action t = a :: r /\ action_text t = Ok (verdict a) /\ one_word (verdict a) /\ In (verdict a) ["permit"; "deny"].
Proof.
  intros (a & r & E & I). exists a, r. split; [exact E|]. unfold action_text. rewrite E.
  destruct I as [<-|[<-|[<-|[<-|[]]]]]; (split; [reflexivity|]; split; [reflexivity|]); vm_compute; tauto.
Qed.
Lemma elsewhere_spec platform t : elsewhere platform t = false <-> any_or (t_platform t) (eq platform) /\ ~ In platform (t_platform_exclude t).
Proof.
  unfold elsewhere. rewrite orb_false_iff. split.
  - intros (A & B). split.
    + destruct (t_platform t) as [|q0 l0] eqn:E; [left; reflexivity|]. cbn [some andb] in A. apply negb_false_iff, str_in_iff in A. right. exists platform. auto.
    + apply str_in_false. destruct (t_platform_exclude t) as [|q0 l0]; [reflexivity|exact B].
  - intros (A & B). split.
    + destruct A as [->|(q & I & <-)]; [reflexivity|]. rewrite (proj2 (str_in_iff _ _) I). rewrite andb_false_r. reflexivity.
    + apply str_in_false in B. rewrite B, andb_false_r. reflexivity.
Qed.
Lemma words_nl l : words_of (lns (lf :: l)) = words_of (lns l). Proof. reflexivity. Qed.
Lemma group_term_exact k v items L R verbose t p lines : In k [class_ios; class_xr; class_nx] -> knows items v L R ->
  group_term_ok v t -> (k = class_nx -> t_platform t = [] /\ t_platform_exclude t = []) ->
  L (t_source_address t) -> L (t_destination_address t) -> (forall r, In r (t_source_port t ++ t_destination_port t) -> R r) ->
  has_addresses (af_of v) (t_source_address t) = true -> has_addresses (af_of v) (t_destination_address t) = true ->
  group_traffic k v p -> group_term k (af_of v) verbose t = Ok lines ->
  Forall (fun l => shifted l \/ l = "") (lns lines) /\
  (forall act, (exists ws, In ws (words_of (lns lines)) /\ rule_matches items v act ws p) <-> says_now p t act).
Proof.
  intros Hk K G Hx Ls Ld Rp Hs Hd (Q1 & Q2 & Q3 & Q4 & Q5) H.
  destruct (gt_plain _ _ G) as (O1 & O2 & O3 & O4 & O5 & O6 & O7).
  assert (TM : term_matches t p <-> elsewhere (k_group_platform k) t = false /\ any_or (t_protocol t) (eq (p_proto p)) /\
     side_matches (t_source_address t) [] (v, snd (p_src p)) /\ ports_match (t_source_port t) (p_sport p) /\
     side_matches (t_destination_address t) [] (v, snd (p_dst p)) /\ ports_match (t_destination_port t) (p_dport p)).
  { rewrite (term_matches_cisco (mkCisco (k_platform k) (af_of v) true false false false) t p (gt_only _ _ G) Q5); [|rewrite O7; exact Logic.I].
    cbn [c_platform]. rewrite O1, O2, O3, O4, O5, O6. rewrite elsewhere_spec.
    assert (Xs : p_src p = (v, snd (p_src p))) by (rewrite <- Q1; destruct (p_src p); reflexivity).
    assert (Xd : p_dst p = (v, snd (p_dst p))) by (rewrite <- Q3; destruct (p_dst p); reflexivity). rewrite <- Xs, <- Xd.
    assert (Pl : any_or (t_platform t) (eq (k_platform k)) /\ ~ In (k_platform k) (t_platform_exclude t) <->
                 any_or (t_platform t) (eq (k_group_platform k)) /\ ~ In (k_group_platform k) (t_platform_exclude t)).
    { destruct Hk as [<-|[<-|[<-|[]]]]; [reflexivity|reflexivity|]. destruct (Hx eq_refl) as (-> & ->).
      split; intros _; (split; [left; reflexivity|intros []]). }
    assert (E1 : forall A (P : A -> Prop), any_or [] P) by (intros A P; left; reflexivity).
    assert (E2 : forall o, In o [] -> p_option p o) by (intros o []). split.
    - intros (A & B & C & D & E & F & I & _). split; [apply Pl; split; assumption|]. auto.
    - intros (A & C & D & E & F & I). apply Pl in A. destruct A as (A & B). split; [exact A|]. split; [exact B|]. split; [exact C|]. auto 10. }
  unfold group_term in H. rewrite (term_protocols_named (t_protocol t)) in H by (intros q I; apply (gt_protocol _ _ G q I)). cbn [bind] in H.
  destruct (elsewhere (k_group_platform k) t) eqn:EP.
  { apply ok_inj in H. subst lines. split; [constructor|]. intros act. split; [intros (ws & [] & _)|]. intros (X & _). apply TM in X. destruct X as (X & _). discriminate X. }
  fold (term_remarks verbose t) in H. assert (Vb : t_verbatim t = []) by apply (gt_only _ _ G). rewrite Vb in H. cbn [some] in H.
  destruct (action_verdict t (gt_action _ _ G)) as (a & r & Ea & At & Wa & Da). rewrite At in H. cbn [bind] in H. apply ok_inj in H.
  pose proof (term_remarks_ok verbose t (gt_name _ _ G)) as TR.
  destruct (group_protocols_shape k v (t_protocol t) p Hk (gt_protocol _ _ G)) as (PW & PS).
  set (pcol := group_protocols k (af_of v) (map named_pval (t_protocol t))) in *.
  set (rules := flat_map (fun sp => flat_map (fun dp => map (fun e => group_termlet (verdict a) (proto_text e) (side_name (t_source_address t)) sp (side_name (t_destination_address t)) dp) pcol)
      (group_ports (t_destination_port t))) (group_ports (t_source_port t))) in *.
  assert (RI : forall x, In x rules <-> exists sp dp e, In sp (group_ports (t_source_port t)) /\ In dp (group_ports (t_destination_port t)) /\ In e pcol /\
      x = group_termlet (verdict a) (proto_text e) (side_name (t_source_address t)) sp (side_name (t_destination_address t)) dp).
  { intros x. unfold rules. rewrite in_flat_map. split.
    - intros (sp & I1 & I). apply in_flat_map in I. destruct I as (dp & I2 & I). apply in_map_iff in I. destruct I as (e & E & I3). exists sp, dp, e. auto.
    - intros (sp & dp & e & I1 & I2 & I3 & E). exists sp. split; [exact I1|]. apply in_flat_map. exists dp. split; [exact I2|]. apply in_map_iff. exists e. auto. }
  assert (GP : forall ports, (forall q, In q ports -> 0 <= fst q /\ 0 <= snd q) -> forall o, In o (group_ports ports) -> oport_good o).
  { intros ports P o I. unfold group_ports in I. destruct ports as [|q0 ports]; [destruct I as [<-|[]]; exact Logic.I|]. cbn [some] in I.
    apply in_map_iff in I. destruct I as (q & <- & I). exact (P q I). }
  assert (Ps : forall q, In q (t_source_port t) -> R q /\ 0 <= fst q /\ 0 <= snd q).
  { intros q I. split; [apply Rp, in_or_app; left; exact I|]. apply (gt_ports _ _ G), in_or_app. left. exact I. }
  assert (Pd : forall q, In q (t_destination_port t) -> R q /\ 0 <= fst q /\ 0 <= snd q).
  { intros q I. split; [apply Rp, in_or_app; right; exact I|]. apply (gt_ports _ _ G), in_or_app. right. exact I. }
  assert (TX : forall sp dp e, In sp (group_ports (t_source_port t)) -> In dp (group_ports (t_destination_port t)) -> In e pcol ->
    split_ws (group_termlet (verdict a) (proto_text e) (side_name (t_source_address t)) sp (side_name (t_destination_address t)) dp) =
      verdict a :: proto_text e :: side_words (t_source_address t) ++ port_words sp ++ side_words (t_destination_address t) ++ port_words dp /\
    has_char newline (group_termlet (verdict a) (proto_text e) (side_name (t_source_address t)) sp (side_name (t_destination_address t)) dp) = false).
  { intros sp dp e I1 I2 I3. apply (termlet_text v); [exact Wa|exact (PW e I3)|exact (gt_src _ _ G)|exact (gt_dst _ _ G)| |].
    - apply (GP (t_source_port t)); [intros q I; apply Ps, I|exact I1].
    - apply (GP (t_destination_port t)); [intros q I; apply Pd, I|exact I2]. }
  assert (RP : lns rules = rules).
  { apply lns_plain. intros x I. apply RI in I. destruct I as (sp & dp & e & I1 & I2 & I3 & ->). apply (TX sp dp e I1 I2 I3). }
  assert (EL : lns lines = "" :: "" :: term_remarks verbose t ++ rules).
  { rewrite <- H. change ((lf :: term_remarks verbose t) ++ rules) with ([lf] ++ (term_remarks verbose t ++ rules)).
    rewrite !lns_app, RP, (remarks_plain _ TR). reflexivity. }
  rewrite EL. split.
  - constructor; [right; reflexivity|]. constructor; [right; reflexivity|]. apply Forall_app. split; [exact (remarks_shape _ TR)|].
    apply Forall_forall. intros x I. apply RI in I. destruct I as (sp & dp & e & I1 & I2 & I3 & ->). left.
    destruct (TX sp dp e I1 I2 I3) as (W & _). unfold group_termlet in *. cbn [append rstrip] in W |- *.
    match goal with |- shifted (if ?b then _ else _) => destruct b end; [cbn in W; discriminate W|]. eexists. reflexivity.
  - intros act. change (words_of ("" :: "" :: ?l)) with (words_of l). rewrite words_app. unfold says_now. rewrite TM. rewrite <- PS.
    rewrite <- (ports_pred items v L R _ (p_sport p) K Ps), <- (ports_pred items v L R _ (p_dport p) K Pd).
    rewrite <- (side_pred_spec items v L R _ _ K Ls Hs Q2), <- (side_pred_spec items v L R _ _ K Ld Hd Q4).
    split.
    + intros (ws & I & M). apply in_app_or in I. destruct I as [I|I]; [destruct (remarks_quiet items v _ p act ws TR I M)|].
      unfold words_of in I. apply filter_In in I. destruct I as (I & _). apply in_map_iff in I. destruct I as (x & <- & I).
      apply RI in I. destruct I as (sp & dp & e & I1 & I2 & I3 & ->). rewrite (proj1 (TX sp dp e I1 I2 I3)) in M. apply rule_words in M.
      destruct M as (<- & _ & M1 & M2 & M3 & M4 & M5). split; [|exists a, r; auto]. split; [reflexivity|].
      split; [exists e; auto|]. split; [exact M2|]. split; [exists sp; auto|]. split; [exact M4|]. exists dp. auto.
    + intros ((_ & (e & I3 & M1) & M2 & (sp & I1 & M3) & M4 & (dp & I2 & M5)) & w & r' & Ew & ->).
      rewrite Ea in Ew. injection Ew as <- <-. destruct (TX sp dp e I1 I2 I3) as (W & _).
      exists (verdict a :: proto_text e :: side_words (t_source_address t) ++ port_words sp ++ side_words (t_destination_address t) ++ port_words dp). split.
      * apply in_or_app. right. unfold words_of. apply filter_In. split; [|reflexivity]. rewrite <- W. apply in_map. apply RI. exists sp, dp, e. auto.
      * apply rule_words. auto 10.
Qed.
(** Every line of a term begins with a blank or is empty. *)
Lemma group_term_shape k v verbose t lines : In k [class_ios; class_xr; class_nx] -> group_term_ok v t -> group_term k (af_of v) verbose t = Ok lines ->
  Forall (fun l => (shifted l \/ l = "") /\ shaped (split_ws l)) (lns lines).
Proof.
  intros Hk G H.
  unfold group_term in H. rewrite (term_protocols_named (t_protocol t)) in H by (intros q I; apply (gt_protocol _ _ G q I)). cbn [bind] in H.
  destruct (elsewhere (k_group_platform k) t) eqn:EP; [apply ok_inj in H; subst lines; constructor|].
  fold (term_remarks verbose t) in H. assert (Vb : t_verbatim t = []) by apply (gt_only _ _ G). rewrite Vb in H. cbn [some] in H.
  destruct (action_verdict t (gt_action _ _ G)) as (a & r & Ea & At & Wa & Da). rewrite At in H. cbn [bind] in H. apply ok_inj in H. subst lines.
  pose proof (term_remarks_ok verbose t (gt_name _ _ G)) as TR.
  change ((lf :: term_remarks verbose t) ++ ?x) with ([lf] ++ (term_remarks verbose t ++ x)). rewrite !lns_app, (remarks_plain _ TR).
  constructor; [split; [right|left]; reflexivity|]. constructor; [split; [right|left]; reflexivity|]. apply Forall_app. split; [exact (remarks_shaped _ TR)|].
  apply Forall_forall. intros x I. unfold lns in I. apply in_flat_map in I. destruct I as (y & I & J).
  apply in_flat_map in I. destruct I as (sp & I1 & I). apply in_flat_map in I. destruct I as (dp & I2 & I). apply in_map_iff in I. destruct I as (e & <- & I3).
  assert (GP : forall ports, (forall q, In q ports -> 0 <= fst q /\ 0 <= snd q) -> forall o, In o (group_ports ports) -> oport_good o).
  { intros ports P o I. unfold group_ports in I. destruct ports as [|q0 ports]; [destruct I as [<-|[]]; exact Logic.I|]. cbn [some] in I.
    apply in_map_iff in I. destruct I as (q & <- & I). exact (P q I). }
  assert (Pe : one_word (proto_text e) /\ proto_text e <> "net-group").
  {    destruct (t_protocol t) as [|q0 ps] eqn:Ep.
    - cbn [map group_protocols] in I3. destruct I3 as [<-|[]]. destruct v; destruct Hk as [<-|[<-|[<-|[]]]]; (split; [reflexivity|discriminate]).
    - rewrite <- Ep in *. assert (E : group_protocols k (af_of v) (map named_pval (t_protocol t)) = map (group_entry k) (map named_pval (t_protocol t))) by (rewrite Ep; reflexivity).
      rewrite E, map_map in I3. apply in_map_iff in I3. destruct I3 as (q & <- & I3). destruct (gt_protocol _ _ G q I3) as (A & B & C).
      exact (entry_word k q Hk A B). }
  assert (Gs : oport_good sp) by (apply (GP (t_source_port t)); [|exact I1]; intros q I; apply (gt_ports _ _ G), in_or_app; left; exact I).
  assert (Gd : oport_good dp) by (apply (GP (t_destination_port t)); [|exact I2]; intros q I; apply (gt_ports _ _ G), in_or_app; right; exact I).
  destruct Pe as (Pe & Pn). destruct (termlet_text v (verdict a) (proto_text e) (t_source_address t) sp (t_destination_address t) dp Wa Pe (gt_src _ _ G) (gt_dst _ _ G) Gs Gd) as (W & N).
  rewrite split_plain in J by exact N. destruct J as [<-|[]]. split.
    2:{ right. right. rewrite W, !side_words_name. exists (verdict a), (proto_text e), (side_opt (t_source_address t)), sp, (side_opt (t_destination_address t)), dp.
        split; [destruct Da as [<-|[<-|[]]]; discriminate|]. split; [exact Pn|]. split; [exact Gs|]. split; [exact Gd|reflexivity]. }
    left. unfold group_termlet in *. cbn [append rstrip] in W |- *.
    match goal with |- shifted (if ?b then _ else _) => destruct b end; [cbn in W; discriminate W|]. eexists. reflexivity.
Qed.

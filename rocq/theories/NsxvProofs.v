(** NSX-V sections: the tree of a rule and what it says. *)
From Coq Require Import Lia ZifyBool ZifyNat.
From Verif Require Import SpecGce BaseFacts IPFacts PyStrFacts TextProofs PolicyProofs GenProofs GenProofs2 CiscoProofs CiscoProofs2 CiscoAcl GceProofs GceDecide GceRules QuietTerm IptAddr OpenConfigProofs JuniperProofs NsxProofs NsxvRead SpecNsxv.
From Verif Require CiscoGroupRead.
Local Open Scope string_scope.
Local Open Scope list_scope.
Local Open Scope Z_scope.

(** ** Trees *)
Definition txt (s : string) : list xml := if is_empty s then [] else [Text s].
Definition el (tag s : string) : xml := Elem tag (txt s).
Definition addr_tree (tag : string) (n : net) : xml :=
  Elem tag [el "type" (match nver n with V4 => "Ipv4Address" | V6 => "Ipv6Address" end);
            el "value" (if (1 <? 2 ^ (width (nver n) - nlen n))%Z then prefixlen_text n else addr_text (nver n) (naddr n))].
Definition side_head (tag : string) : string := (tag ++ "s excluded=" ++ String dquote ("false" ++ String dquote ""))%string.
Definition side_tree (tag : string) (l : list net) : list xml := if some l then [Elem (side_head tag) (map (addr_tree tag) l)] else [].
Definition opt_tree (b : bool) (tag s : string) : list xml := if b then [el tag s] else [].
Definition ports_tree (tag : string) (l : list prange) : list xml := opt_tree (some l) tag (join ", " (map ModelJuniper.port_text l)).
Definition service_tree (n : Z) (sp dp : list prange) (types : list (option Z)) : list xml :=
  if (n =? 1) || (n =? 58) then
    map (fun k => Elem "service" (el "protocol" (dec n) :: match k with Some k => [el "subProtocol" (dec k)] | None => [] end)) types
  else [Elem "service" (el "protocol" (dec n) :: ports_tree "sourcePort" sp ++ ports_tree "destinationPort" dp)].
Definition number_of (q : string) : Z := match assoc q proto_map with Some n => n | None => 0 end.
Definition services_tree (t : term) (types : list (option Z)) : list xml :=
  if some (t_protocol t) then [Elem "services" (flat_map (fun q => service_tree (number_of q) (t_source_port t) (t_destination_port t) types) (t_protocol t))] else [].
Definition group_tree (g : option string) : list xml :=
  match g with Some g => if is_empty g then [] else [Elem "appliedToList" [Elem "appliedTo" [el "type" "SecurityGroup"; el "value" g]]] | None => [] end.
Definition rule_head (b : bool) : string := ("rule logged=" ++ String dquote ((if b then "true" else "false") ++ String dquote ""))%string.
Definition rule_tree (b : bool) (name action : string) (src dst services group : list xml) (noted : bool) (note : string) : xml :=
  Elem (rule_head b) (el "name" name :: el "action" action :: src ++ dst ++ services ++ group ++ opt_tree noted "notes" note).

(** ** Their text *)
Lemma xtexts_cons x l : xtexts (x :: l) = (xtext x ++ xtexts l)%string.
Proof. reflexivity. Qed.
Lemma xtexts_app a b : xtexts (a ++ b) = (xtexts a ++ xtexts b)%string.
Proof. induction a as [|x a IH]; [reflexivity|]. cbn [app]. rewrite !xtexts_cons, IH, app_assoc_str. reflexivity. Qed.
Lemma xtexts_one x : xtexts [x] = xtext x.
Proof. rewrite xtexts_cons. apply str_app_nil. Qed.
Lemma txt_text s : xtexts (txt s) = s.
Proof. unfold txt. destruct s as [|c s]; [reflexivity|]. cbn [is_empty]. rewrite xtexts_one. reflexivity. Qed.
Lemma elem_text tag kids : tag_of tag = tag -> xtext (Elem tag kids) = nv_elem tag (xtexts kids).
Proof. intros T. rewrite xtext_elem, T. reflexivity. Qed.
Lemma el_text tag s : tag_of tag = tag -> xtext (el tag s) = nv_elem tag s.
Proof. intros T. unfold el. rewrite elem_text, txt_text by exact T. reflexivity. Qed.
Lemma cat_trees {A} (f : A -> string) (g : A -> list xml) l : (forall a, In a l -> f a = xtexts (g a)) -> nv_cat (map f l) = xtexts (flat_map g l).
Proof.
  intros H. induction l as [|a l IH]; [reflexivity|]. cbn [map nv_cat fold_right flat_map]. rewrite xtexts_app, <- IH by (intros; apply H; right; assumption). rewrite <- (H a (or_introl eq_refl)). reflexivity.
Qed.
Lemma cat_tree {A} (f : A -> string) (g : A -> xml) l : (forall a, In a l -> f a = xtext (g a)) -> nv_cat (map f l) = xtexts (map g l).
Proof.
  intros H. induction l as [|a l IH]; [reflexivity|]. cbn [map nv_cat fold_right]. rewrite xtexts_cons, <- IH by (intros; apply H; right; assumption). rewrite <- (H a (or_introl eq_refl)). reflexivity.
Qed.
Definition side_tags : list string := ["source"; "destination"].
Lemma address_text tag n : In tag side_tags -> nv_address tag n = xtext (addr_tree tag n).
Proof.
  intros I. assert (T : tag_of tag = tag) by (destruct I as [<-|[<-|[]]]; reflexivity). unfold addr_tree. rewrite (elem_text tag _ T), xtexts_cons, xtexts_one, !el_text by reflexivity. reflexivity.
Qed.
Lemma side_text tag l : In tag side_tags -> nv_addresses tag l = xtexts (side_tree tag l).
Proof.
  intros I. unfold nv_addresses, side_tree. destruct (some l); [|reflexivity]. rewrite xtexts_one, xtext_elem.
  rewrite (cat_tree _ _ _ (fun n _ => address_text tag n I)). destruct I as [<-|[<-|[]]]; reflexivity.
Qed.
Lemma ports_text tag l : tag_of tag = tag -> nv_ports tag l = xtexts (ports_tree tag l).
Proof. intros T. unfold nv_ports, ports_tree, opt_tree. destruct (some l); [|reflexivity]. rewrite xtexts_one, el_text by exact T. reflexivity. Qed.
Lemma service_text n sp dp types : ~ In (Some 0) types -> nv_service (inl n) sp dp types = xtexts (service_tree n sp dp types).
Proof.
  intros Z. unfold nv_service, service_tree. destruct ((n =? 1) || (n =? 58)).
  - apply cat_tree. intros k Ik. rewrite elem_text by reflexivity. f_equal. destruct k as [k|].
    + assert (E : (k =? 0) = false) by (apply Z.eqb_neq; intros ->; contradiction). rewrite E, xtexts_cons, xtexts_one, !el_text by reflexivity. reflexivity.
    + rewrite xtexts_one, el_text by reflexivity. apply str_app_nil.
  - rewrite xtexts_one, elem_text by reflexivity. f_equal. rewrite xtexts_cons, xtexts_app, el_text, <- !ports_text by reflexivity. reflexivity.
Qed.
Lemma services_text t types : ~ In (Some 0) types -> (forall q, In q (t_protocol t) -> In q (map fst proto_map)) -> nv_services t types = xtexts (services_tree t types).
Proof.
  intros Z H. unfold nv_services, services_tree. destruct (some (t_protocol t)); [|reflexivity]. rewrite xtexts_one, elem_text by reflexivity. f_equal.
  apply cat_trees. intros q Iq. destruct (String.eqb q "any") eqn:E.
  { apply String.eqb_eq in E. subst q. specialize (H _ Iq). apply str_in_spec in H. discriminate H. }
  unfold number_of. destruct (assoc_some q proto_map (H q Iq)) as (n & ->). apply service_text, Z.
Qed.
Lemma group_text g : (match g with
        | Some g => if is_empty g then "" else nv_elem "appliedToList" (nv_elem "appliedTo" (nv_elem "type" "SecurityGroup" ++ nv_elem "value" g))
        | None => "" end)%string = xtexts (group_tree g).
Proof.
  unfold group_tree. destruct g as [g|]; [|reflexivity]. destruct (is_empty g); [reflexivity|]. rewrite xtexts_one, !elem_text by reflexivity. rewrite xtexts_one, elem_text, xtexts_cons, xtexts_one, !el_text by reflexivity. reflexivity.
Qed.
Lemma rule_text t g action src dst types : ~ In (Some 0) types -> (forall q, In q (t_protocol t) -> In q (map fst proto_map)) ->
  nv_rule t g action src dst (nv_services t types) =
  xtext (rule_tree (some (t_logging t)) (t_name t) action (side_tree "source" src) (side_tree "destination" dst) (services_tree t types) (group_tree g) (some (t_comment t)) (nv_cat (t_comment t))).
Proof.
  intros Z H. unfold nv_rule, rule_tree. rewrite xtext_elem, !xtexts_cons, !xtexts_app, !el_text, <- !side_text, <- services_text, <- group_text by (first [reflexivity|assumption|cbn; auto]).
  assert (N : (if some (t_comment t) then nv_elem "notes" (nv_cat (t_comment t)) else "") = xtexts (opt_tree (some (t_comment t)) "notes" (nv_cat (t_comment t)))).
  { unfold opt_tree. destruct (some (t_comment t)); [|reflexivity]. rewrite xtexts_one, el_text by reflexivity. reflexivity. }
  rewrite <- N. destruct (some (t_logging t)); rewrite !app_assoc_str; reflexivity.
Qed.

(** ** They can be read *)
Definition gel (x : xml) : Prop := match x with Elem h k => head_ok h = true /\ squeeze false h = h /\ good k /\ tight k | Text _ => False end.
Lemma good_all l : (forall x, In x l -> gel x) -> good l /\ tight l.
Proof.
  induction l as [|x l IH]; intros H; [split; constructor|]. destruct IH as (A & B); [intros; apply H; right; assumption|]. specialize (H x (or_introl eq_refl)). destruct x as [h k|s]; [|destruct H].
  destruct H as (H1 & H2 & H3 & H4). split; constructor; assumption.
Qed.
Lemma gel_elem h k : head_ok h = true -> squeeze false h = h -> (forall x, In x k -> gel x) -> gel (Elem h k).
Proof. intros A B C. destruct (good_all k C). cbn. auto. Qed.
Lemma gel_el tag s : head_ok tag = true -> squeeze false tag = tag -> plain s -> gel (el tag s).
Proof.
  intros A B (C & _ & D). unfold el, txt. destruct s as [|c s]; cbn [is_empty]; (split; [exact A|split; [exact B|]]); [split; constructor|].
  split; constructor; try constructor; try assumption; try reflexivity; discriminate.
Qed.
Lemma gel_tree x : gel x -> good [x] /\ tight [x].
Proof. intros H. apply good_all. intros y [<-|[]]. exact H. Qed.
Lemma squeeze_has c s i : is_ws c = false -> has_char c (squeeze i s) = has_char c s.
Proof.
  intros W. revert i. induction s as [|d s IH]; intros i; [reflexivity|]. cbn [squeeze has_char]. destruct (is_ws d) eqn:D.
  - assert (Nd : Ascii.eqb d c = false) by (destruct (Ascii.eqb d c) eqn:E; [apply Ascii.eqb_eq in E; congruence|reflexivity]). rewrite Nd. cbn [orb].
    assert (Nb : Ascii.eqb " " c = false) by (destruct (Ascii.eqb " " c) eqn:E; [apply Ascii.eqb_eq in E; subst c; discriminate W|reflexivity]).
    destruct i; cbn [has_char]; [apply IH|]. rewrite Nb. apply IH.
  - cbn [has_char]. rewrite IH. reflexivity.
Qed.
Lemma squeeze_empty s : is_empty (squeeze false s) = is_empty s.
Proof. destruct s as [|c s]; [reflexivity|]. cbn [squeeze]. destruct (is_ws c); reflexivity. Qed.
Lemma good_sq l : good l -> good (map sq l).
Proof.
  induction 1 as [|h k l H G1 IH1 G2 IH2|s l N H1 H2 G IH T]; cbn [map]; [constructor| |].
  - rewrite sq_elem. constructor; assumption.
  - cbn [sq]. constructor; try (rewrite squeeze_has by reflexivity); try assumption.
    + intros X. apply N. pose proof (squeeze_empty s) as E. rewrite X in E. destruct s; [reflexivity|discriminate E].
    + destruct l as [|[|] l]; [reflexivity|reflexivity|discriminate T].
Qed.
Lemma squeeze_no_ws s i : no_ws s -> squeeze i s = s.
Proof.
  unfold no_ws. revert i. induction s as [|c s IH]; intros i H; [reflexivity|]. cbn [forall_char] in H. apply andb_true_iff in H. destruct H as (H1 & H2). apply negb_true_iff in H1. cbn [squeeze]. rewrite H1, IH by exact H2. reflexivity.
Qed.
Lemma sq_el tag s : sq (el tag s) = el tag (squeeze false s).
Proof. unfold el. rewrite sq_elem. f_equal. unfold txt. rewrite squeeze_empty. destruct (is_empty s); reflexivity. Qed.
Lemma sq_same tag s : squeeze false s = s -> sq (el tag s) = el tag s.
Proof. intros E. rewrite sq_el, E. reflexivity. Qed.
(** Texts of numbers and addresses *)
Definition value_char (c : ascii) : bool := is_addrc c || Ascii.eqb c "/" || Ascii.eqb c "-".
Definition tidy (s : string) : Prop := forall_char value_char s = true /\ s <> "".
Lemma digit_value c : is_digit c = true -> value_char c = true.
Proof. destruct c as [[] [] [] [] [] [] [] []]; vm_compute; congruence. Qed.
Lemma tidy_dec n : 0 <= n -> tidy (dec n).
Proof. intros H. split; [|apply dec_nonempty]. eapply forall_char_impl; [|apply dec_digits, H]. exact digit_value. Qed.
Lemma tidy_addr v a : 0 <= a < 2 ^ width v -> tidy (addr_text v a).
Proof. intros H. split; [|apply addr_text_nonempty, H]. eapply forall_char_impl; [|apply addr_text_chars]. intros c C. unfold value_char. rewrite C. reflexivity. Qed.
Lemma tidy_app a c b : tidy a -> value_char c = true -> tidy b -> tidy (a ++ String c b).
Proof.
  intros (A & A') C (B & B'). split; [|destruct a; discriminate]. rewrite forall_char_app. cbn [forall_char]. rewrite A, C, B. reflexivity.
Qed.
Lemma tidy_prefix n : valid n -> tidy (prefixlen_text n).
Proof. intros V. unfold prefixlen_text. apply (tidy_app _ "/"); [apply tidy_addr; destruct V as (_ & V & _); exact V|reflexivity|apply tidy_dec; destruct V; lia]. Qed.
Lemma tidy_port r : 0 <= fst r -> 0 <= snd r -> tidy (ModelJuniper.port_text r).
Proof. destruct r as (lo, hi). cbn [fst snd]. intros A B. unfold ModelJuniper.port_text. destruct (lo =? hi); [apply tidy_dec, A|]. apply (tidy_app _ "-"); [apply tidy_dec, A|reflexivity|apply tidy_dec, B]. Qed.
Lemma tidy_has s c : tidy s -> value_char c = false -> has_char c s = false.
Proof. intros (A & _) H. eapply forall_char_has; [exact A|exact H]. Qed.
Lemma tidy_no_ws s : tidy s -> no_ws s.
Proof. intros (A & _). unfold no_ws. eapply forall_char_impl; [|exact A]. intros c. destruct c as [[] [] [] [] [] [] [] []]; vm_compute; congruence. Qed.
Lemma tidy_plain s : tidy s -> plain s.
Proof. intros T. repeat split; apply tidy_has; try exact T; reflexivity. Qed.
Lemma plain_app a b : plain a -> plain b -> plain (a ++ b).
Proof. intros (A1 & A2 & A3) (B1 & B2 & B3). unfold plain. rewrite !has_char_app, A1, A2, A3, B1, B2, B3. auto. Qed.
Lemma tidy_same s : tidy s -> squeeze false s = s.
Proof. intros T. apply squeeze_no_ws, tidy_no_ws, T. Qed.

(** The ports of a service: texts with a comma and a blank between them. *)
Lemma join_cons (w v : string) ws : join ", " (w :: v :: ws) = (w ++ String "," (String " " (join ", " (v :: ws))))%string.
Proof. reflexivity. Qed.
Lemma ports_same ws : ws <> [] -> (forall w, In w ws -> tidy w) -> squeeze false (join ", " ws) = join ", " ws /\ plain (join ", " ws) /\ join ", " ws <> "".
Proof.
  induction ws as [|w ws IH]; intros N H; [congruence|]. pose proof (H w (or_introl eq_refl)) as Tw. destruct ws as [|v ws].
  - cbn [join]. split; [apply tidy_same, Tw|]. split; [apply tidy_plain, Tw|apply Tw].
  - destruct IH as (A & B & C); [discriminate|intros; apply H; right; assumption|]. rewrite join_cons. split; [|split].
    + rewrite squeeze_mid by reflexivity. rewrite (tidy_same w Tw). do 2 f_equal. cbn [squeeze]. change (is_ws " ") with true. cbv iota. f_equal.
      assert (F : exists c r, join ", " (v :: ws) = String c r /\ is_ws c = false).
      { pose proof (H v (or_intror (or_introl eq_refl))) as Tv. pose proof (tidy_no_ws v Tv) as Wv. destruct Tv as (_ & Nv). destruct v as [|c v]; [congruence|].
        unfold no_ws in Wv. cbn [forall_char] in Wv. apply andb_true_iff in Wv. destruct Wv as (Wv & _). apply negb_true_iff in Wv. destruct ws; eexists; eexists; split; try reflexivity; exact Wv. }
      destruct F as (c & r & F & W). rewrite F in *. cbn [squeeze] in *. rewrite W in *. exact A.
    + apply plain_app; [apply tidy_plain, Tw|]. destruct B as (B1 & B2 & B3). unfold plain. cbn [has_char]. rewrite B1, B2, B3. auto.
    + destruct w; discriminate.
Qed.
Lemma split_none c s : has_char c s = false -> split_char c s = [s].
Proof. induction s as [|d s IH]; [reflexivity|]. cbn [has_char split_char]. intros H. apply orb_false_iff in H. destruct H as (H1 & H2). rewrite H1, IH by exact H2. reflexivity. Qed.
Lemma ports_split ws w : (forall v, In v (w :: ws) -> has_char "," v = false) -> split_char "," (join ", " (w :: ws)) = w :: map (String " ") ws.
Proof.
  revert w. induction ws as [|v ws IH]; intros w H.
  - cbn [join map]. apply split_none, H. left. reflexivity.
  - rewrite join_cons, CiscoGroupRead.split_char_join, (split_none _ w) by (apply H; left; reflexivity). cbn [app split_char]. change (Ascii.eqb " " ",") with false. cbv iota.
    rewrite IH by (intros; apply H; right; assumption). reflexivity.
Qed.
Lemma port_list_meaning l n : l <> [] -> (forall r, In r l -> 0 <= fst r /\ 0 <= snd r) ->
  port_list_says (join ", " (map ModelJuniper.port_text l)) n <-> in_ports l n.
Proof.
  intros N H. assert (T : forall w, In w (map ModelJuniper.port_text l) -> tidy w).
  { intros w I. apply in_map_iff in I. destruct I as (r & <- & I). destruct (H r I). apply tidy_port; assumption. }
  assert (S : forall w, (exists v, In v (split_char "," (join ", " (map ModelJuniper.port_text l))) /\ lstrip v = w) <-> In w (map ModelJuniper.port_text l)).
  { intros w. destruct (map ModelJuniper.port_text l) as [|a ws] eqn:E; [destruct l; [congruence|discriminate E]|].
    rewrite ports_split by (intros v I; apply tidy_has; [apply T, I|reflexivity]). split.
    - intros (v & [<-|I] & Ev).
      + rewrite lstrip_no_ws in Ev by (apply tidy_no_ws, T; left; reflexivity). left. exact Ev.
      + apply in_map_iff in I. destruct I as (u & <- & I). cbn [lstrip] in Ev. change (is_ws " ") with true in Ev. cbv iota in Ev. rewrite lstrip_no_ws in Ev by (apply tidy_no_ws, T; right; exact I). subst u. right. exact I.
    - intros [<-|I].
      + exists a. split; [left; reflexivity|]. apply lstrip_no_ws, tidy_no_ws, T. left. reflexivity.
      + exists (String " " w). split; [right; apply in_map, I|]. cbn [lstrip]. change (is_ws " ") with true. cbv iota. apply lstrip_no_ws, tidy_no_ws, T. right. exact I. }
  unfold port_list_says, in_ports. split.
  - intros (v & I & R). assert (J : In (lstrip v) (map ModelJuniper.port_text l)) by (apply S; eauto). apply in_map_iff in J. destruct J as (r & E & J). exists r. split; [exact J|]. rewrite <- E in R. destruct (H r J). apply port_text_says in R; assumption.
  - intros (r & I & R). destruct (H r I) as (A & B). destruct (proj2 (S (ModelJuniper.port_text r))) as (v & Iv & Ev); [apply in_map, I|]. exists v. split; [exact Iv|]. rewrite Ev. apply port_text_says; assumption.
Qed.

(** ** Children *)
Lemma not_both x a b : tag_is x a -> tag_is x b -> a <> b -> False.
Proof. destruct x as [h k|s]; cbn; [congruence|auto]. Qed.
Definition no_tag (tag : string) (l : list xml) : Prop := forall k, In k l -> ~ tag_is k tag.
Lemma no_tag_app tag a b : no_tag tag a -> no_tag tag b -> no_tag tag (a ++ b).
Proof. intros A B k I. apply in_app_iff in I. destruct I as [I|I]; [apply A, I|apply B, I]. Qed.
Lemma no_tag_cons tag h ks l : tag_of h <> tag -> no_tag tag l -> no_tag tag (Elem h ks :: l).
Proof. intros A B k [<-|I]; [exact A|apply B, I]. Qed.
Lemma no_tag_nil tag : no_tag tag [].
Proof. intros k []. Qed.
Lemma no_tag_opt tag b t s : tag_of t <> tag -> no_tag tag (opt_tree b t s).
Proof. intros A. unfold opt_tree. destruct b; [apply no_tag_cons; [exact A|apply no_tag_nil]|apply no_tag_nil]. Qed.
Lemma no_tag_side tag t l : In t side_tags -> (t ++ "s")%string <> tag -> no_tag tag (side_tree t l).
Proof. intros I A. unfold side_tree. destruct (some l); [apply no_tag_cons; [|apply no_tag_nil]|apply no_tag_nil]. destruct I as [<-|[<-|[]]]; exact A. Qed.
Lemma no_tag_group tag g : tag <> "appliedToList" -> no_tag tag (group_tree g).
Proof. intros A. unfold group_tree. destruct g as [g|]; [|apply no_tag_nil]. destruct (is_empty g); [apply no_tag_nil|]. apply no_tag_cons; [intros X; apply A; symmetry; exact X|apply no_tag_nil]. Qed.
Lemma no_tag_services tag t types : tag <> "services" -> no_tag tag (services_tree t types).
Proof. intros A. unfold services_tree. destruct (some (t_protocol t)); [|apply no_tag_nil]. apply no_tag_cons; [intros X; apply A; symmetry; exact X|apply no_tag_nil]. Qed.
(** The children of a name, when the others have other names. *)
Lemma child_mid h a m b tag k : no_tag tag a -> no_tag tag b -> (forall x, In x m -> tag_is x tag) -> child (Elem h (a ++ m ++ b)) tag k <-> In k m.
Proof.
  intros A B M. unfold child. cbn [kids_of]. rewrite !in_app_iff. split; [|intros I; split; [auto|apply M, I]].
  intros ([I|[I|I]] & T); [destruct (A k I T)|exact I|destruct (B k I T)].
Qed.
Lemma none_mid h a b tag : no_tag tag a -> no_tag tag b -> no_child (Elem h (a ++ [] ++ b)) tag.
Proof. intros A B k I. apply child_mid in I; [destruct I|exact A|exact B|intros x []]. Qed.
Lemma holds_mid h a b tag s u : tag_of tag = tag -> s <> "" -> no_tag tag a -> no_tag tag b -> holds (Elem h (a ++ [el tag s] ++ b)) tag u <-> u = s.
Proof.
  intros T N A B. assert (K : kids_of (el tag s) = [Text s]) by (destruct s; [congruence|reflexivity]). split.
  - intros (k & C & E). apply child_mid in C; [|exact A|exact B|intros x [<-|[]]; exact T]. destruct C as [<-|[]]. congruence.
  - intros ->. exists (el tag s). split; [|exact K]. apply child_mid; [exact A|exact B|intros x [<-|[]]; exact T|left; reflexivity].
Qed.
Lemma given_mid h a b tag f s P : tag_of tag = tag -> (f = true -> s <> "") -> no_tag tag a -> no_tag tag b ->
  xml_given (Elem h (a ++ opt_tree f tag s ++ b)) tag P <-> (f = true -> P s).
Proof.
  intros T N A B. unfold xml_given, opt_tree. destruct f.
  - specialize (N eq_refl). split.
    + intros [X|(u & U & X)] _; [exfalso; apply (X (el tag s)), child_mid; [exact A|exact B|intros x [<-|[]]; exact T|left; reflexivity]|]. apply holds_mid in U; try assumption. subst u. exact X.
    + intros X. right. exists s. split; [apply holds_mid; auto|auto].
  - split; [discriminate|]. intros _. left. apply none_mid; assumption.
Qed.

(** ** Addresses *)
Lemma address_meaning tag n x : In tag side_tags -> valid n -> on_net x -> address_says x (addr_tree tag n) <-> covers n x.
Proof.
  intros I V O. set (ty := match nver n with V4 => "Ipv4Address" | V6 => "Ipv6Address" end). set (va := if 1 <? 2 ^ (width (nver n) - nlen n) then prefixlen_text n else addr_text (nver n) (naddr n)).
  assert (A : 0 <= naddr n < 2 ^ width (nver n)) by (destruct V as (_ & V & _); exact V).
  assert (Tv : va <> "") by (unfold va; destruct (1 <? _); [apply tidy_prefix, V|apply tidy_addr, A]).
  assert (Ht : forall u, holds (addr_tree tag n) "type" u <-> u = ty).
  { intros u. apply (holds_mid tag [] [el "value" va]); [reflexivity|unfold ty; destruct (nver n); discriminate|apply no_tag_nil|]. apply no_tag_cons; [discriminate|apply no_tag_nil]. }
  assert (Hv : forall u, holds (addr_tree tag n) "value" u <-> u = va).
  { intros u. apply (holds_mid tag [el "type" ty] []); [reflexivity|exact Tv| |apply no_tag_nil]. apply no_tag_cons; [discriminate|apply no_tag_nil]. }
  assert (Va : fst x = nver n -> value_says x va <-> covers n x).
  { intros F. unfold value_says, va. destruct (1 <? 2 ^ (width (nver n) - nlen n)) eqn:E.
    - assert (S : has_char "/" (prefixlen_text n) = true) by (unfold prefixlen_text; apply has_mid). rewrite S. apply GceProofs.range_text; assumption.
    - rewrite addr_text_noslash, F, addr_text_value by exact A. unfold covers, size. assert (L : 0 <= nlen n <= width (nver n)) by (destruct V; assumption).
      assert (P : 0 < 2 ^ (width (nver n) - nlen n)) by (apply Z.pow_pos_nonneg; lia). split; [intros X; injection X as X; split; [auto|lia]|]. intros (_ & X). f_equal. lia. }
  unfold address_says. split.
  - intros (t & s & T & S & F & X). apply Ht in T. apply Hv in S. subst t s. apply Va; [|exact X]. unfold ty in F. destruct F as [(F & G)|(F & G)], (nver n); congruence.
  - intros C. assert (F : fst x = nver n) by (destruct C as (C & _); auto). exists ty, va. split; [apply Ht; reflexivity|]. split; [apply Hv; reflexivity|]. split; [|apply Va; assumption].
    unfold ty. destruct (nver n); [left|right]; auto.
Qed.
Lemma side_meaning h a b tag l x : In tag side_tags -> no_tag (tag ++ "s") a -> no_tag (tag ++ "s") b -> valid_list l -> on_net x ->
  side_says tag x (Elem h (a ++ side_tree tag l ++ b)) <-> grp l x.
Proof.
  intros I A B V O. unfold side_says, grp, side_tree. destruct (nil_or_not l) as [->|N].
  - cbn [some]. split; [auto|]. intros _. left. apply none_mid; assumption.
  - rewrite (proj2 (some_not_nil l) N). set (g := Elem (side_head tag) (map (addr_tree tag) l)).
    assert (Tg : tag_is g (tag ++ "s")) by (destruct I as [<-|[<-|[]]]; reflexivity).
    assert (Ta : forall n, tag_is (addr_tree tag n) tag) by (intros n; destruct I as [<-|[<-|[]]]; reflexivity).
    assert (Cg : forall k, child (Elem h (a ++ [g] ++ b)) (tag ++ "s") k <-> k = g).
    { intros k. rewrite child_mid; [|exact A|exact B|intros y [<-|[]]; exact Tg]. cbn. intuition. }
    unfold valid_list in V. rewrite Forall_forall in V. split.
    + intros [X|(g' & k & G & (K & _) & S)]; [exfalso; apply (X g), Cg; reflexivity|]. apply Cg in G. subst g'. right. cbn [kids_of g] in K. apply in_map_iff in K. destruct K as (n & <- & K).
      exists n. split; [exact K|]. apply (address_meaning tag); auto.
    + intros [X|(n & J & C)]; [contradiction|]. right. exists g, (addr_tree tag n). split; [apply Cg; reflexivity|]. split; [split; [cbn [kids_of g]; apply in_map, J|apply Ta]|]. apply address_meaning; auto.
Qed.

(** ** Services *)
Lemma in_type_tables p v q : p_proto p = q -> q = (match v with V4 => "icmp" | V6 => "icmpv6" end) -> (if String.eqb (p_proto p) "icmp" then icmp_type4 else icmp_type6) = icmp_types_of v.
Proof. intros E Q. rewrite E, Q. destruct v; reflexivity. Qed.
Lemma protocol_meaning h rest q n p : In (q, n) proto_map -> 0 <= n -> no_tag "protocol" rest ->
  (exists s m, holds (Elem h (el "protocol" (dec n) :: rest)) "protocol" s /\ numeral_value s = Some m /\ In (p_proto p, m) proto_map) <-> p_proto p = q.
Proof.
  intros I N T. assert (H : forall u, holds (Elem h (el "protocol" (dec n) :: rest)) "protocol" u <-> u = dec n) by (intros u; apply (holds_mid h [] rest); [reflexivity|apply dec_nonempty|apply no_tag_nil|exact T]).
  split.
  - intros (s & m & S & M & J). apply H in S. subst s. rewrite dec_value in M by exact N. injection M as <-. exact (proto_inj _ _ _ J I).
  - intros <-. exists (dec n), n. split; [apply H; reflexivity|]. split; [apply dec_value, N|exact I].
Qed.
Lemma number_fact q : In q (map fst proto_map) -> q <> "all" -> In (q, number_of q) proto_map /\ 0 <= number_of q /\
  ((number_of q =? 1) || (number_of q =? 58) = true <-> q = "icmp" \/ q = "icmpv6").
Proof.
  intros I N. unfold number_of. destruct (assoc_some q proto_map I) as (n & E). rewrite E. pose proof E as E0. apply assoc_in in E. split; [exact E|].
  assert (D : forallb (fun e : string * Z => String.eqb (fst e) "all" || (0 <=? snd e)) proto_map = true) by (vm_compute; reflexivity). rewrite forallb_forall in D. specialize (D _ E). cbn [fst snd] in D.
  split; [destruct (String.eqb q "all") eqn:X; [apply String.eqb_eq in X; contradiction|cbn [orb] in D; lia]|]. rewrite orb_true_iff, !Z.eqb_eq. split.
  - intros [->| ->]; [left; apply (proto_inj _ _ _ E)|right; apply (proto_inj _ _ _ E)]; apply assoc_in; reflexivity.
  - intros [->| ->]; [left|right]; vm_compute in E0; congruence.
Qed.
Definition kind_of_icmp (v : ver) : string := match v with V4 => "icmp" | V6 => "icmpv6" end.
Lemma ports_given h a b tag (l : list prange) n : tag_of tag = tag -> no_tag tag a -> no_tag tag b -> (forall r, In r l -> 0 <= fst r /\ 0 <= snd r) ->
  xml_given (Elem h (a ++ ports_tree tag l ++ b)) tag (fun s => port_list_says s n) <-> ports_match l n.
Proof.
  intros T A B H. unfold ports_tree. rewrite given_mid; [|exact T| |exact A|exact B].
  - unfold ports_match. destruct (nil_or_not l) as [->|N]; [cbn; split; [auto|discriminate]|]. rewrite (proj2 (some_not_nil l) N), port_list_meaning by assumption. split; [intros X; right; exact (X eq_refl)|intros [X|X] _; [contradiction|exact X]].
  - intros S. apply some_not_nil in S. apply ports_same; [destruct l; [congruence|discriminate]|]. intros w I. apply in_map_iff in I. destruct I as (r & <- & I). destruct (H r I). apply tidy_port; assumption.
Qed.
Lemma types_given h a b o P : (forall k, o = Some k -> 0 <= k) -> no_tag "subProtocol" a -> no_tag "subProtocol" b ->
  xml_given (Elem h (a ++ match o with Some k => [el "subProtocol" (dec k)] | None => [] end ++ b)) "subProtocol" (fun s => exists n, numeral_value s = Some n /\ P n) <-> forall k, o = Some k -> P k.
Proof.
  intros K A B. destruct o as [k|].
  - change [el "subProtocol" (dec k)] with (opt_tree true "subProtocol" (dec k)). rewrite given_mid; [|reflexivity|intros _; apply dec_nonempty|exact A|exact B]. specialize (K k eq_refl). split.
    + intros X k' E. injection E as <-. destruct (X eq_refl) as (n & N & Q). rewrite dec_value in N by exact K. congruence.
    + intros X _. exists k. split; [apply dec_value, K|apply X; reflexivity].
  - split; [discriminate|]. intros _. left. apply none_mid; assumption.
Qed.
Lemma service_meaning q sp dp ts p : In q (map fst proto_map) -> q <> "all" -> (forall r, In r (sp ++ dp) -> 0 <= fst r /\ 0 <= snd r) -> (forall k, In k ts -> 0 <= k) ->
  ((exists e, In e (service_tree (number_of q) sp dp (or_any ts)) /\ nv_service_says p e) <->
   p_proto p = q /\ (q <> "icmp" /\ q <> "icmpv6" -> ports_match sp (p_sport p) /\ ports_match dp (p_dport p)) /\
   forall v, q = kind_of_icmp v -> ts = [] \/ exists k, In k ts /\ In (p_icmp_type p, k) (icmp_types_of v)) /\
  service_tree (number_of q) sp dp (or_any ts) <> [].
Proof.
  intros Hq Na Hr Hk. destruct (number_fact q Hq Na) as (I & N & Ic). unfold service_tree. destruct ((number_of q =? 1) || (number_of q =? 58)) eqn:E.
  - split; [|destruct ts; discriminate]. assert (Q : exists v, q = kind_of_icmp v) by (destruct (proj1 Ic eq_refl) as [->| ->]; [exists V4|exists V6]; reflexivity). destruct Q as (v & Q).
    assert (M : forall o, (forall k, o = Some k -> 0 <= k) -> nv_service_says p (Elem "service" (el "protocol" (dec (number_of q)) :: match o with Some k => [el "subProtocol" (dec k)] | None => [] end)) <->
      p_proto p = q /\ forall k, o = Some k -> In (p_icmp_type p, k) (icmp_types_of v)).
    { intros o Ho. unfold nv_service_says.
      assert (T : forall tag, tag <> "subProtocol" -> no_tag tag (match o with Some k => [el "subProtocol" (dec k)] | None => [] end)) by (intros tag X; destruct o; [apply no_tag_cons; [intros Y; apply X; symmetry; exact Y|apply no_tag_nil]|apply no_tag_nil]).
      rewrite (protocol_meaning _ _ q) by (try assumption; apply T; discriminate).
      assert (G : forall tag P, tag <> "subProtocol" -> tag <> "protocol" -> xml_given (Elem "service" (el "protocol" (dec (number_of q)) :: match o with Some k => [el "subProtocol" (dec k)] | None => [] end)) tag P).
      { intros tag P X Y. left. intros k (J & Tk). cbn [kids_of] in J. destruct J as [<-|J]; [apply Y; symmetry; exact Tk|]. exact (T tag X k J Tk). }
      pose proof (types_given "service" [el "protocol" (dec (number_of q))] [] o (fun n => In (p_icmp_type p, n) (if String.eqb (p_proto p) "icmp" then icmp_type4 else icmp_type6)) Ho) as Ty.
      rewrite app_nil_r in Ty. cbn [app] in Ty. specialize (Ty ltac:(apply no_tag_cons; [discriminate|apply no_tag_nil]) (no_tag_nil _)). rewrite Ty. split.
      - intros (_ & A & _ & _ & B). split; [exact A|]. rewrite (in_type_tables p v q A Q) in B. exact B.
      - intros (A & B). split; [reflexivity|]. split; [exact A|]. split; [apply G; discriminate|]. split; [apply G; discriminate|]. rewrite (in_type_tables p v q A Q). exact B. }
    assert (Ho : forall o, In o (or_any ts) -> forall k, o = Some k -> 0 <= k) by (intros o J k ->; apply or_any_in in J; destruct J as [(X & _)|(k' & X & J)]; [discriminate X|injection X as <-; apply Hk, J]).
    split.
    + intros (e & J & S). apply in_map_iff in J. destruct J as (o & <- & J). apply (M o (Ho o J)) in S. destruct S as (S1 & S2). split; [exact S1|]. split; [intros (X & Y); destruct (proj1 Ic eq_refl); contradiction|].
      intros v' Q'. assert (v' = v) by (destruct v, v'; try reflexivity; rewrite Q in Q'; discriminate Q'). subst v'. apply or_any_in in J. destruct J as [(_ & X)|(k & -> & J)]; [left; exact X|right; exists k; auto].
    + intros (S1 & _ & S2). assert (X : exists o, In o (or_any ts) /\ forall k, o = Some k -> In (p_icmp_type p, k) (icmp_types_of v)).
      { destruct (S2 v Q) as [->|(k & J & S)]; [exists None; split; [left; reflexivity|discriminate]|]. exists (Some k). split; [apply or_any_in; right; exists k; auto|]. intros k' X. injection X as <-. exact S. }
      destruct X as (o & J & S). eexists. split; [apply in_map_iff; exists o; split; [reflexivity|exact J]|]. apply (M o (Ho o J)). auto.
  - split; [|discriminate]. assert (Nq : q <> "icmp" /\ q <> "icmpv6") by (split; intros X; assert (Y : false = true) by (apply Ic; auto); discriminate Y).
    set (e := Elem "service" (el "protocol" (dec (number_of q)) :: ports_tree "sourcePort" sp ++ ports_tree "destinationPort" dp)).
    assert (M : nv_service_says p e <-> p_proto p = q /\ ports_match sp (p_sport p) /\ ports_match dp (p_dport p)).
    { unfold nv_service_says, e. rewrite (protocol_meaning _ _ q) by (try assumption; apply no_tag_app; apply no_tag_opt; discriminate).
      pose proof (ports_given "service" [el "protocol" (dec (number_of q))] (ports_tree "destinationPort" dp) "sourcePort" sp (p_sport p) eq_refl) as P1. cbn [app] in P1.
      pose proof (ports_given "service" (el "protocol" (dec (number_of q)) :: ports_tree "sourcePort" sp) [] "destinationPort" dp (p_dport p) eq_refl) as P2. rewrite app_nil_r in P2. cbn [app] in P2.
      rewrite P1, P2.
      - split; [intros (_ & A & B & C & _); auto|]. intros (A & B & C). split; [reflexivity|]. split; [exact A|]. split; [exact B|]. split; [exact C|]. left.
        intros k (J & Tk). cbn [kids_of] in J. revert k J Tk. change (no_tag "subProtocol" (el "protocol" (dec (number_of q)) :: ports_tree "sourcePort" sp ++ ports_tree "destinationPort" dp)).
        apply no_tag_cons; [discriminate|]. apply no_tag_app; apply no_tag_opt; discriminate.
      - apply no_tag_cons; [discriminate|]. apply no_tag_opt. discriminate.
      - apply no_tag_nil.
      - intros r J. apply Hr, in_app_iff. auto.
      - apply no_tag_cons; [discriminate|apply no_tag_nil].
      - apply no_tag_opt. discriminate.
      - intros r J. apply Hr, in_app_iff. auto. }
    split.
    + intros (e' & [<-|[]] & S). apply M in S. destruct S as (S1 & S2). split; [exact S1|]. split; [auto|]. intros v Q. exfalso. destruct v; [apply (proj1 Nq), Q|apply (proj2 Nq), Q].
    + intros (S1 & S2 & _). exists e. split; [left; reflexivity|]. apply M. split; [exact S1|]. apply S2, Nq.
Qed.

(** ** Trees of rules can be read, and have single blanks but in names and comments *)
Lemma sides_read tag l : In tag side_tags -> valid_list l -> (forall x, In x (side_tree tag l) -> gel x) /\ map sq (side_tree tag l) = side_tree tag l.
Proof.
  intros I V. unfold valid_list in V. rewrite Forall_forall in V. unfold side_tree. destruct (some l); [|split; [intros x []|reflexivity]].
  assert (Va : forall n, In n l -> tidy (if 1 <? 2 ^ (width (nver n) - nlen n) then prefixlen_text n else addr_text (nver n) (naddr n))).
  { intros n J. destruct (1 <? _); [apply tidy_prefix, V, J|]. apply tidy_addr. destruct (V n J) as (_ & X & _). exact X. }
  split.
  - intros x [<-|[]]. apply gel_elem; [destruct I as [<-|[<-|[]]]; reflexivity|destruct I as [<-|[<-|[]]]; reflexivity|]. intros x J. apply in_map_iff in J. destruct J as (n & <- & J).
    apply gel_elem; [destruct I as [<-|[<-|[]]]; reflexivity|destruct I as [<-|[<-|[]]]; reflexivity|]. intros x [<-|[<-|[]]]; (apply gel_el; [reflexivity|reflexivity|]); [destruct (nver n); repeat split; reflexivity|apply tidy_plain, Va, J].
  - cbn [map]. rewrite sq_elem, map_map. do 2 f_equal. apply map_ext_in. intros n J. unfold addr_tree. rewrite sq_elem. cbn [map]. rewrite !sq_same; [reflexivity|apply tidy_same, Va, J|destruct (nver n); reflexivity].
Qed.
Lemma ports_read tag (l : list prange) : head_ok tag = true -> squeeze false tag = tag -> (forall r, In r l -> 0 <= fst r /\ 0 <= snd r) -> (forall x, In x (ports_tree tag l) -> gel x) /\ map sq (ports_tree tag l) = ports_tree tag l.
Proof.
  intros A B H. unfold ports_tree, opt_tree. destruct (nil_or_not l) as [->|N]; [split; [intros x []|reflexivity]|]. rewrite (proj2 (some_not_nil l) N).
  destruct (ports_same (map ModelJuniper.port_text l)) as (S & P & _); [destruct l; [congruence|discriminate]|intros w I; apply in_map_iff in I; destruct I as (r & <- & I); destruct (H r I); apply tidy_port; assumption|].
  split; [intros x [<-|[]]; apply gel_el; assumption|]. cbn [map]. rewrite sq_same by exact S. reflexivity.
Qed.
Lemma service_read n sp dp types : 0 <= n -> (forall r, In r (sp ++ dp) -> 0 <= fst r /\ 0 <= snd r) -> (forall k, In (Some k) types -> 0 <= k) ->
  (forall x, In x (service_tree n sp dp types) -> gel x) /\ map sq (service_tree n sp dp types) = service_tree n sp dp types.
Proof.
  intros N Hr Hk. assert (Gp : gel (el "protocol" (dec n))) by (apply gel_el; [reflexivity|reflexivity|apply tidy_plain, tidy_dec, N]).
  assert (Sp : sq (el "protocol" (dec n)) = el "protocol" (dec n)) by (apply sq_same, tidy_same, tidy_dec, N).
  unfold service_tree. destruct ((n =? 1) || (n =? 58)).
  - split.
    + intros x J. apply in_map_iff in J. destruct J as (k & <- & J). apply gel_elem; [reflexivity|reflexivity|]. intros x [<-|X]; [exact Gp|]. destruct k as [k|]; [|destruct X]. destruct X as [<-|[]]. apply gel_el; [reflexivity|reflexivity|apply tidy_plain, tidy_dec, Hk, J].
    + rewrite map_map. apply map_ext_in. intros k J. rewrite sq_elem. cbn [map]. rewrite Sp. do 2 f_equal. destruct k as [k|]; [|reflexivity]. cbn [map]. rewrite sq_same by (apply tidy_same, tidy_dec, Hk, J). reflexivity.
  - destruct (ports_read "sourcePort" sp eq_refl eq_refl) as (A1 & A2); [intros r J; apply Hr, in_app_iff; auto|]. destruct (ports_read "destinationPort" dp eq_refl eq_refl) as (B1 & B2); [intros r J; apply Hr, in_app_iff; auto|]. split.
    + intros x [<-|[]]. apply gel_elem; [reflexivity|reflexivity|]. intros x [<-|J]; [exact Gp|]. apply in_app_iff in J. destruct J; auto.
    + cbn [map]. rewrite sq_elem. cbn [map]. rewrite Sp, map_app, A2, B2. reflexivity.
Qed.
Lemma services_read t types : (forall q, In q (t_protocol t) -> In q (map fst proto_map) /\ q <> "all") -> (forall r, In r (t_source_port t ++ t_destination_port t) -> 0 <= fst r /\ 0 <= snd r) -> (forall k, In (Some k) types -> 0 <= k) ->
  (forall x, In x (services_tree t types) -> gel x) /\ map sq (services_tree t types) = services_tree t types.
Proof.
  intros Hq Hr Hk. unfold services_tree. destruct (some (t_protocol t)); [|split; [intros x []|reflexivity]].
  assert (S : forall q, In q (t_protocol t) -> (forall x, In x (service_tree (number_of q) (t_source_port t) (t_destination_port t) types) -> gel x) /\ map sq (service_tree (number_of q) (t_source_port t) (t_destination_port t) types) = service_tree (number_of q) (t_source_port t) (t_destination_port t) types).
  { intros q J. destruct (Hq q J) as (A & B). apply service_read; [apply (number_fact q A B)|exact Hr|exact Hk]. }
  split.
  - intros x [<-|[]]. apply gel_elem; [reflexivity|reflexivity|]. intros x J. apply in_flat_map in J. destruct J as (q & J & X). exact (proj1 (S q J) x X).
  - cbn [map]. rewrite sq_elem. do 2 f_equal. clear Hq. induction (t_protocol t) as [|q l IH]; [reflexivity|]. cbn [flat_map]. rewrite map_app, IH by (intros; apply S; right; assumption). f_equal. apply S. left. reflexivity.
Qed.
Definition squeezed_group (g : option string) : option string := option_map (squeeze false) g.
Lemma group_read g : (forall w, g = Some w -> plain w) -> (forall x, In x (group_tree g) -> gel x) /\ map sq (group_tree g) = group_tree (squeezed_group g).
Proof.
  intros H. destruct g as [g|]; [|split; [intros x []|reflexivity]]. cbn [group_tree squeezed_group option_map]. rewrite squeeze_empty. destruct (is_empty g); [split; [intros x []|reflexivity]|]. split.
  - intros x [<-|[]]. apply gel_elem; [reflexivity|reflexivity|]. intros x [<-|[]]. apply gel_elem; [reflexivity|reflexivity|]. intros x [<-|[<-|[]]]; (apply gel_el; [reflexivity|reflexivity|]); [repeat split; reflexivity|apply H; reflexivity].
  - cbn [map]. rewrite sq_elem. cbn [map]. rewrite sq_elem. cbn [map]. rewrite !sq_el. reflexivity.
Qed.
Lemma plain_cat l : (forall c, In c l -> plain c) -> plain (nv_cat l).
Proof. intros H. induction l as [|c l IH]; [repeat split; reflexivity|]. cbn [nv_cat fold_right]. apply plain_app; [apply H; left; reflexivity|]. apply IH. intros; apply H; right; assumption. Qed.
(** The rule as it is read back. *)
Lemma rule_read b name action src dst services group b' note src' dst' services' group' :
  plain name -> plain action -> squeeze false action = action -> plain note ->
  ((forall x, In x src -> gel x) /\ map sq src = src') -> ((forall x, In x dst -> gel x) /\ map sq dst = dst') ->
  ((forall x, In x services -> gel x) /\ map sq services = services') -> ((forall x, In x group -> gel x) /\ map sq group = group') ->
  gel (rule_tree b name action src dst services group b' note) /\
  sq (rule_tree b name action src dst services group b' note) = rule_tree b (squeeze false name) action src' dst' services' group' b' (squeeze false note).
Proof.
  intros P1 P2 Sa P3 (A1 & A2) (B1 & B2) (C1 & C2) (D1 & D2). unfold rule_tree. split.
  - apply gel_elem; [destruct b; reflexivity|destruct b; reflexivity|]. intros x [<-|[<-|J]]; [apply gel_el; [reflexivity|reflexivity|exact P1]|apply gel_el; [reflexivity|reflexivity|exact P2]|].
    rewrite !in_app_iff in J. destruct J as [J|[J|[J|[J|J]]]]; auto. unfold opt_tree in J. destruct b'; [|destruct J]. destruct J as [<-|[]]. apply gel_el; [reflexivity|reflexivity|exact P3].
  - rewrite sq_elem. cbn [map]. rewrite !sq_el, Sa, !map_app, A2, B2, C2, D2. do 6 f_equal. unfold opt_tree. destruct b'; [|reflexivity]. cbn [map]. rewrite sq_el. reflexivity.
Qed.
(** What the rule says. *)
Lemma rule_meaning b name action src dst t types group b' note p o : action <> "" -> valid_list src -> valid_list dst -> on_net (p_src p) -> on_net (p_dst p) ->
  nv_rule_says p (rule_tree b name action (side_tree "source" src) (side_tree "destination" dst) (services_tree t types) (group_tree group) b' note) o <->
  o = action /\ grp src (p_src p) /\ grp dst (p_dst p) /\
  (some (t_protocol t) = false \/ flat_map (fun q => service_tree (number_of q) (t_source_port t) (t_destination_port t) types) (t_protocol t) = [] \/
   exists e, In e (flat_map (fun q => service_tree (number_of q) (t_source_port t) (t_destination_port t) types) (t_protocol t)) /\ nv_service_says p e).
Proof.
  intros Na Vs Vd Os Od. set (S := side_tree "source" src). set (D := side_tree "destination" dst). set (V := services_tree t types). set (G := group_tree group). set (N := opt_tree b' "notes" note).
  unfold nv_rule_says, rule_tree. fold N.
  assert (TS : forall tag, tag <> "sources" -> no_tag tag S) by (intros tag X; apply no_tag_side; [left; reflexivity|intros Y; apply X; symmetry; exact Y]).
  assert (TD : forall tag, tag <> "destinations" -> no_tag tag D) by (intros tag X; apply no_tag_side; [right; left; reflexivity|intros Y; apply X; symmetry; exact Y]).
  assert (TV : forall tag, tag <> "services" -> no_tag tag V) by (intros tag; apply no_tag_services).
  assert (TG : forall tag, tag <> "appliedToList" -> no_tag tag G) by (intros tag; apply no_tag_group).
  assert (TN : forall tag, tag <> "notes" -> no_tag tag N) by (intros tag X; apply no_tag_opt; intros Y; apply X; symmetry; exact Y).
  assert (Ha : forall u, holds (Elem (rule_head b) (el "name" name :: el "action" action :: S ++ D ++ V ++ G ++ N)) "action" u <-> u = action).
  { intros u. apply (holds_mid _ [el "name" name] (S ++ D ++ V ++ G ++ N)); [reflexivity|exact Na|apply no_tag_cons; [discriminate|apply no_tag_nil]|].
    repeat apply no_tag_app; [apply TS|apply TD|apply TV|apply TG|apply TN]; discriminate. }
  pose proof (side_meaning (rule_head b) [el "name" name; el "action" action] (D ++ V ++ G ++ N) "source" src (p_src p) (or_introl eq_refl)) as Ms. cbn [app] in Ms. fold S in Ms.
  pose proof (side_meaning (rule_head b) (el "name" name :: el "action" action :: S) (V ++ G ++ N) "destination" dst (p_dst p) (or_intror (or_introl eq_refl))) as Md. cbn [app] in Md. fold D in Md.
  assert (T2 : forall tag l, tag <> "name" -> tag <> "action" -> no_tag tag l -> no_tag tag (el "name" name :: el "action" action :: l)).
  { intros tag l X Y Z. apply no_tag_cons; [intros W; apply X; symmetry; exact W|]. apply no_tag_cons; [intros W; apply Y; symmetry; exact W|exact Z]. }
  specialize (Ms (T2 "sources" [] ltac:(discriminate) ltac:(discriminate) (no_tag_nil _))). specialize (Ms ltac:(repeat apply no_tag_app; [apply TD|apply TV|apply TG|apply TN]; discriminate) Vs Os).
  specialize (Md (T2 "destinations" S ltac:(discriminate) ltac:(discriminate) (TS "destinations" ltac:(discriminate)))). specialize (Md ltac:(repeat apply no_tag_app; [apply TV|apply TG|apply TN]; discriminate) Vd Od).
  rewrite Ha, Ms, Md.
  assert (Mv : services_say p (Elem (rule_head b) (el "name" name :: el "action" action :: S ++ D ++ V ++ G ++ N)) <->
    (some (t_protocol t) = false \/ flat_map (fun q => service_tree (number_of q) (t_source_port t) (t_destination_port t) types) (t_protocol t) = [] \/
     exists e, In e (flat_map (fun q => service_tree (number_of q) (t_source_port t) (t_destination_port t) types) (t_protocol t)) /\ nv_service_says p e)).
  { set (F := flat_map _ _).
    assert (Cv : forall k, child (Elem (rule_head b) (el "name" name :: el "action" action :: S ++ D ++ V ++ G ++ N)) "services" k <-> In k V).
    { intros k. pose proof (child_mid (rule_head b) (el "name" name :: el "action" action :: S ++ D) V (G ++ N) "services" k) as X. cbn [app] in X. rewrite <- app_assoc in X. apply X.
      - apply T2; [discriminate|discriminate|]. apply no_tag_app; [apply TS|apply TD]; discriminate.
      - apply no_tag_app; [apply TG|apply TN]; discriminate.
      - intros x J. unfold V, services_tree in J. destruct (some (t_protocol t)); [|destruct J]. destruct J as [<-|[]]. reflexivity. }
    set (R := Elem (rule_head b) _) in *. clearbody R. unfold services_say, no_child. unfold V, services_tree in Cv. fold F in Cv. destruct (some (t_protocol t)).
    - split.
      + intros [X|(g & C & X)]; [exfalso; apply (X (Elem "services" F)), Cv; left; reflexivity|]. apply Cv in C. destruct C as [<-|[]]. right. exact X.
      + intros [X|X]; [discriminate X|]. right. exists (Elem "services" F). split; [apply Cv; left; reflexivity|exact X].
    - split; [auto|]. intros _. left. intros k C. apply Cv in C. exact C. }
  rewrite Mv. split; [intros (_ & A & B & C & E); auto|]. intros (A & B & C & E). split; [destruct b; reflexivity|]. auto.
Qed.

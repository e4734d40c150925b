(** Proofs about the Kubernetes generator. *)
From Coq Require Import Lia ZifyBool ZifyNat.
From Verif Require Import SpecK8s BaseFacts PyStrFacts IPFacts CollapseProofs ExcludeProofs PolicyProofs GenProofs GenProofs2 TextProofs IptText CiscoProofs CiscoProofs2 CiscoAcl GceProofs CiscoGroupAcl QuietTerm OpenConfigProofs.
Local Open Scope string_scope.
Local Open Scope list_scope.
Local Open Scope Z_scope.

Definition dir_of (w : way) : string := match w with Ingress => "INGRESS" | Egress => "EGRESS" end.
Lemma k8_way_spec options w : header_way options w <-> k8_way options = dir_of w.
Proof.
  assert (R : str_in "EGRESS" (ModelGce.remove_first "INGRESS" options) = str_in "EGRESS" options).
  { induction options as [|o l IH]; [reflexivity|]. cbn [ModelGce.remove_first]. destruct (String.eqb_spec "INGRESS" o) as [<-|N]; [reflexivity|]. unfold str_in, memb in *. cbn [existsb]. rewrite IH. reflexivity. }
  unfold k8_way, pick. cbn [fold_left fst snd]. pose proof (str_in_spec "EGRESS" options) as Se.
  destruct (str_in "INGRESS" options); cbn [fst snd]; [rewrite R|]; destruct (str_in "EGRESS" options); cbn [fst snd];
    destruct w; cbn [header_way dir_of]; split; intros H; try reflexivity; try discriminate H; try tauto.
  all: try (destruct Se as [Se _]; specialize (Se eq_refl); contradiction).
  all: try (destruct Se as [_ Se]; specialize (Se H); discriminate Se).
  all: try (intros X; destruct Se as [_ Se]; specialize (Se X); discriminate Se).
Qed.
Lemma k8_side_near w t : k8_side (dir_of w) t = near_side w t.
Proof. destruct w; reflexivity. Qed.

(** ** The terms of a header *)
Definition k8_skipped (today : Z) (t : term) : Prop := t_stateless_reply t = true \/ expired today t = true \/ active_on "k8s" t = false.
Definition k8_block (dir : string) (today : Z) (t : term) (b : list json) : Prop :=
  (k8_skipped today t /\ b = []) \/
  (t_stateless_reply t = false /\ expired today t = false /\ active_on "k8s" t = true /\ t_option t = [] /\
   ((k8_init dir t = Ok false /\ b = []) \/
    (k8_init dir t = Ok true /\ exists c j, k8_dict dir c (set_name (if String.eqb dir "EGRESS" then append (t_name t) "-e" else t_name t) t) = Ok j /\ b = [j]))).
Lemma k8_name_of dir c t j : k8_dict dir c t = Ok j -> name_of j (t_name t) /\ k8_name_ok (t_name t) = true.
Proof.
  unfold k8_dict. destruct (k8_name_ok (t_name t)); cbn [negb]; [|discriminate]. intros E. apply ok_inj in E. subst j. split; reflexivity.
Qed.
Lemma k8_terms_blocks dir hc today : forall ts names items, k8_terms dir hc today names ts = Ok items ->
  exists bs, items = concat bs /\ Forall2 (k8_block dir today) ts bs.
Proof.
  induction ts as [|t ts IH]; intros names items E; cbn [k8_terms] in E.
  - apply ok_inj in E. subst items. exists []. split; [reflexivity|constructor].
  - assert (Skip : forall names', k8_skipped today t -> k8_terms dir hc today names' ts = Ok items -> exists bs, items = concat bs /\ Forall2 (k8_block dir today) (t :: ts) bs).
    { intros names' S E'. destruct (IH _ _ E') as (bs & -> & F). exists ([] :: bs). split; [reflexivity|]. constructor; [left; auto|exact F]. }
    destruct (t_stateless_reply t) eqn:Er; [exact (Skip _ (or_introl Er) E)|].
    destruct (fix_term_length _ _ _ _ _) as [name|] eqn:En; [|discriminate E]. cbn [bind] in E. apply length_same in En.
    destruct (str_in name names); [discriminate E|]. destruct (expired today t) eqn:Ex; [exact (Skip _ (or_intror (or_introl Ex)) E)|].
    destruct (some (t_option t)) eqn:Eo; [discriminate E|]. destruct (active_on "k8s" t) eqn:Ea; cbn [negb] in E; [|exact (Skip _ (or_intror (or_intror Ea)) E)].
    apply some_false in Eo. destruct (k8_init dir t) as [b|] eqn:Ei; [|discriminate E]. cbn [bind] in E.
    destruct b.
    + destruct (k8_dict _ _ _) as [j|] eqn:Ej; [|discriminate E]. cbn [bind] in E. destruct (k8_terms dir hc today (name :: names) ts) as [more|] eqn:Em; [|discriminate E]. cbn [bind] in E. apply ok_inj in E. subst items.
      destruct (IH _ _ Em) as (bs & -> & F). exists ([j] :: bs). split; [reflexivity|]. constructor; [|exact F]. right. split; [exact Er|]. split; [exact Ex|]. split; [exact Ea|]. split; [exact Eo|].
      right. split; [exact Ei|]. eexists _, j. rewrite <- En. split; [exact Ej|reflexivity].
    + cbn [bind] in E. destruct (k8_terms dir hc today (name :: names) ts) as [more|] eqn:Em; [|discriminate E]. cbn [bind] in E. apply ok_inj in E. subst items.
      destruct (IH _ _ Em) as (bs & -> & F). exists ([] :: bs). split; [reflexivity|]. constructor; [|exact F]. right. auto 10.
Qed.
Lemma k8_terms_names dir hc today : forall ts names items, k8_terms dir hc today names ts = Ok items ->
  exists ns, Forall2 name_of items ns /\ NoDup ns /\ forall n, In n ns -> ~ In n names.
Proof.
  induction ts as [|t ts IH]; intros names items E; cbn [k8_terms] in E.
  - apply ok_inj in E. subst items. exists []. split; [constructor|]. split; [constructor|intros n []].
  - destruct (t_stateless_reply t); [exact (IH _ _ E)|].
    destruct (fix_term_length _ _ _ _ _) as [name|] eqn:En; [|discriminate E]. cbn [bind] in E. clear En.
    destruct (str_in name names) eqn:Nm; [discriminate E|].
    assert (Skip : forall items', k8_terms dir hc today (name :: names) ts = Ok items' -> exists ns, Forall2 name_of items' ns /\ NoDup ns /\ ~ In name ns /\ forall n, In n ns -> ~ In n names).
    { intros items' E'. destruct (IH _ _ E') as (ns & F & D & A). exists ns. split; [exact F|]. split; [exact D|]. split; [intros X; exact (A _ X (or_introl eq_refl))|]. intros n I X. exact (A n I (or_intror X)). }
    assert (Skip' : k8_terms dir hc today (name :: names) ts = Ok items -> exists ns, Forall2 name_of items ns /\ NoDup ns /\ forall n, In n ns -> ~ In n names).
    { intros E'. destruct (Skip _ E') as (ns & F & D & _ & A). eauto. }
    destruct (expired today t); [exact (Skip' E)|]. destruct (some (t_option t)); [discriminate E|]. destruct (active_on "k8s" t); cbn [negb] in E; [|exact (Skip' E)].
    destruct (k8_init dir t) as [b|]; [|discriminate E]. cbn [bind] in E. destruct b.
    + destruct (k8_dict _ _ _) as [j|] eqn:Ej; [|discriminate E]. cbn [bind] in E. destruct (k8_terms dir hc today (name :: names) ts) as [more|]; [|discriminate E]. cbn [bind] in E. apply ok_inj in E. subst items.
      destruct (Skip _ eq_refl) as (ns & F & D & N & A). exists (name :: ns). apply k8_name_of in Ej. destruct Ej as [Ej _]. split; [constructor; [exact Ej|exact F]|]. split; [constructor; assumption|].
      intros n [<-|I] X; [apply str_in_spec in X; congruence|exact (A n I X)].
    + cbn [bind] in E. destruct (k8_terms dir hc today (name :: names) ts) as [more|]; [|discriminate E]. cbn [bind app] in E. apply ok_inj in E. subst items. exact (Skip' eq_refl).
Qed.

(** ** Names *)
Lemma k8_char_alnum c : k8_char c = true -> lower_alnum c.
Proof. destruct c as [[] [] [] [] [] [] [] []]; vm_compute; intros E; try discriminate E; tauto. Qed.
Lemma k8_name_dns s : k8_name_ok s = true -> ~ In "."%char (list_ascii_of_string s) -> dns_name s.
Proof.
  unfold k8_name_ok. cbv zeta. intros H D. rewrite !andb_true_iff in H. destruct H as ((((H1 & H2) & H3) & H4) & H5).
  assert (L : List.length (list_ascii_of_string s) = String.length s) by (clear; induction s as [|c s IH]; [reflexivity|]; cbn [list_ascii_of_string List.length String.length]; rewrite IH; reflexivity).
  split; [rewrite L in H2; lia|]. exists [s]. split; [discriminate|]. split; [reflexivity|]. intros l [<-|[]]. unfold dns_label. cbv zeta.
  split; [|split; apply k8_char_alnum; assumption]. intros c I. rewrite forallb_forall in H3. specialize (H3 c I). rewrite !orb_true_iff in H3.
  destruct H3 as [[H3|H3]|H3]; [left; apply k8_char_alnum; exact H3|right; apply Ascii.eqb_eq; exact H3|]. apply Ascii.eqb_eq in H3. subst c. contradiction.
Qed.
Theorem k8_names_distinct today options hc terms items : k8_policy today [((options, hc), terms)] = Ok items ->
  exists ns, Forall2 name_of items ns /\ NoDup ns.
Proof.
  unfold k8_policy. destruct (check_tokens _ _ _) as [[]|]; [|discriminate]. cbn [bind k8_filters]. intros E.
  destruct (k8_terms _ _ _ [] terms) as [l|] eqn:E1; [|discriminate E]. cbn [bind] in E. rewrite app_nil_r in E. apply ok_inj in E. subst items.
  destruct (k8_terms_names _ _ _ _ _ _ E1) as (ns & F & D & _). eauto.
Qed.

(** ** The blocks of all headers *)
Lemma k8_filters_in today : forall fs items, k8_filters today fs = Ok items -> forall item, In item items <->
  exists options hc terms, In ((options, hc), terms) fs /\ exists l, k8_terms (k8_way options) hc today [] terms = Ok l /\ In item l.
Proof.
  induction fs as [|[[options hc] terms] fs IH]; intros items E item; cbn [k8_filters] in E.
  - apply ok_inj in E. subst items. split; [intros []|intros (o & h & t & [] & _)].
  - destruct (k8_terms _ _ _ _ _) as [l|] eqn:E1; [|discriminate E]. cbn [bind] in E. destruct (k8_filters today fs) as [more|]; [|discriminate E]. cbn [bind] in E. apply ok_inj in E. subst items.
    rewrite in_app_iff, (IH more eq_refl item). split.
    + intros [I|(o & h & t & I & H)]; [exists options, hc, terms; split; [left; reflexivity|]; exists l; auto|exists o, h, t; split; [right; exact I|exact H]].
    + intros (o & h & t & [X|I] & l' & E' & H); [|right; exists o, h, t; split; [exact I|]; exists l'; auto].
      injection X as <- <- <-. assert (l' = l) by congruence. subst l'. left. exact H.
Qed.
Lemma k8_filters_each today : forall fs items options hc terms, k8_filters today fs = Ok items -> In ((options, hc), terms) fs ->
  exists l, k8_terms (k8_way options) hc today [] terms = Ok l.
Proof.
  induction fs as [|[[o h] ts] fs IH]; intros items options hc terms E I; [destruct I|]. cbn [k8_filters] in E.
  destruct (k8_terms _ _ _ _ _) as [l|] eqn:E1; [|discriminate E]. cbn [bind] in E. destruct (k8_filters today fs) as [more|]; [|discriminate E].
  destruct I as [X|I]; [injection X as -> -> ->; eauto|exact (IH more _ _ _ eq_refl I)].
Qed.
Lemma concat_block {A B} (P : A -> list B -> Prop) ts bs : Forall2 P ts bs -> forall x, In x (concat bs) -> exists t b, In t ts /\ P t b /\ In x b.
Proof.
  induction 1 as [|t b ts bs H F IH]; intros x I; [destruct I|]. cbn [concat] in I. apply in_app_iff in I. destruct I as [I|I]; [exists t, b; split; [left; reflexivity|auto]|].
  destruct (IH x I) as (t' & b' & I' & H'). exists t', b'. split; [right; exact I'|exact H'].
Qed.
Lemma concat_block_of {A B} (P : A -> list B -> Prop) ts bs : Forall2 P ts bs -> forall t, In t ts -> exists b, P t b /\ forall x, In x b -> In x (concat bs).
Proof.
  induction 1 as [|t b ts bs H F IH]; intros u I; [destruct I|]. cbn [concat]. destruct I as [<-|I]; [exists b; split; [exact H|intros x X; apply in_app_iff; auto]|].
  destruct (IH u I) as (b' & H' & X'). exists b'. split; [exact H'|]. intros x X. apply in_app_iff. right. apply X', X.
Qed.

(** ** One resource *)
Lemma k8_dict_paths w c t j : k8_dict (dir_of w) c t = Ok j ->
  path ["apiVersion"] j = Some (JStr "networking.k8s.io/v1") /\ path ["kind"] j = Some (JStr "NetworkPolicy") /\
  path ["spec"; "podSelector"] j = Some (JDict []) /\ path ["spec"; "policyTypes"] j = Some (JList [JStr (type_word w)]) /\
  (forall w', w' <> w -> path ["spec"; rules_key w'] j = None) /\
  path ["spec"; rules_key w] j = if str_in "deny" (t_action t) then None
    else Some (JList [JDict [("ports", JList (concat (map (k8_port (t_destination_port t)) (t_protocol t))));
                             (peers_key w, JList (map (k8_peer (snd (near_side w t))) (fst (near_side w t))))]]).
Proof.
  unfold k8_dict. destruct (k8_name_ok (t_name t)); cbn [negb]; [|discriminate]. intros E. apply ok_inj in E. subst j.
  split; [reflexivity|]. split; [reflexivity|]. split; [reflexivity|]. split; [destruct w; reflexivity|]. split.
  - intros w' N. destruct (str_in "deny" (t_action t)); destruct w, w'; solve [reflexivity | congruence].
  - destruct (str_in "deny" (t_action t)); destruct w; reflexivity.
Qed.
Lemma k8_applies w w' c t j : k8_dict (dir_of w) c t = Ok j -> (applies w' j <-> w' = w).
Proof.
  intros E. destruct (k8_dict_paths _ _ _ _ E) as (_ & _ & P1 & P2 & _). unfold applies. rewrite P1, P2. split.
  - intros (_ & l & X & I). injection X as <-. destruct I as [I|[]]. destruct w, w'; try reflexivity; discriminate I.
  - intros ->. split; [reflexivity|]. eexists. split; [reflexivity|left; reflexivity].
Qed.
Lemma transport_upper n s : In n (map fst transport) -> (In (n, s) transport <-> s = upper n).
Proof.
  intros I. cbn in I. destruct I as [<-|[<-|[<-|[]]]]; split; intros H; try (subst s; vm_compute; tauto); repeat (destruct H as [H|H]; [try discriminate H; injection H as <-; reflexivity|]); destruct H.
Qed.
Lemma upper_transport q n : In n (map fst transport) -> In (q, upper n) transport -> q = n.
Proof.
  intros I H. cbn in I. destruct I as [<-|[<-|[<-|[]]]]; repeat (destruct H as [H|H]; [try discriminate H; injection H; congruence|]); destruct H.
Qed.
Lemma k8_range_says p n r : In n (map fst transport) ->
  port_says p (JDict (k8_range r ++ [("protocol", JStr (upper n))])) <-> p_proto p = n /\ fst r <= p_dport p <= snd r.
Proof.
  intros I. unfold port_says, k8_range. destruct (fst r =? snd r) eqn:E; cbn [app].
  - apply Z.eqb_eq in E. split.
    + intros ((s & X & T) & P). cbn in X. injection X as <-. cbn in P. destruct P as (lo & X & P). injection X as <-. split; [exact (upper_transport _ _ I T)|lia].
    + intros (Q & P). split; [eexists; split; [reflexivity|]; rewrite Q; apply transport_upper; auto|]. cbn. exists (fst r). split; [reflexivity|lia].
  - split.
    + intros ((s & X & T) & P). cbn in X. injection X as <-. cbn in P. destruct P as (lo & X & hi & Y & P). injection X as <-. injection Y as <-. split; [exact (upper_transport _ _ I T)|exact P].
    + intros (Q & P). split; [eexists; split; [reflexivity|]; rewrite Q; apply transport_upper; auto|]. cbn. exists (fst r). split; [reflexivity|]. exists (snd r). auto.
Qed.
Lemma k8_any_says p n : In n (map fst transport) -> port_says p (JDict [("protocol", JStr (upper n))]) <-> p_proto p = n.
Proof.
  intros I. unfold port_says. cbn. split.
  - intros ((s & X & T) & _). injection X as <-. exact (upper_transport _ _ I T).
  - intros Q. split; [|exact Logic.I]. eexists. split; [reflexivity|]. rewrite Q. change (In (n, upper n) transport). apply transport_upper; auto.
Qed.
Lemma k8_port_nonempty ports n : k8_port ports n <> [].
Proof. destruct ports; discriminate. Qed.
Lemma k8_ports_say p ports ps : (forall n, In n ps -> In n (map fst transport)) -> (ports <> [] -> ps <> []) ->
  (let l := concat (map (k8_port ports) ps) in l = [] \/ exists e, In e l /\ port_says p e) <-> any_or ps (eq (p_proto p)) /\ ports_match ports (p_dport p).
Proof.
  intros K N. cbv zeta. destruct ps as [|n0 ps0].
  { split; [|intros _; left; reflexivity]. intros _. split; [left; reflexivity|]. left. destruct ports; [reflexivity|]. exfalso. apply N; [discriminate|reflexivity]. }
  set (ps := n0 :: ps0) in *. split.
  - intros [X|(e & I & S)].
    + exfalso. unfold ps in X. cbn [map concat] in X. apply app_eq_nil in X. exact (k8_port_nonempty _ _ (proj1 X)).
    + apply in_concat in I. destruct I as (l & I & Ie). apply in_map_iff in I. destruct I as (n & <- & I). pose proof (K n I) as T. unfold any_or, ports_match.
      destruct ports as [|r0 ports0].
      * destruct Ie as [<-|[]]. apply k8_any_says in S; [|exact T]. split; [right; exists n; auto|left; reflexivity].
      * apply in_map_iff in Ie. destruct Ie as (r & <- & Ir). apply k8_range_says in S; [|exact T]. destruct S as [S1 S2]. split; [right; exists n; auto|]. right. exists r. split; [exact Ir|]. exact S2.
  - intros ([X|(n & I & Q)] & P); [discriminate X|]. right. pose proof (K n I) as T. destruct ports as [|r0 ports0].
    + exists (JDict [("protocol", JStr (upper n))]). split; [|apply k8_any_says; auto]. apply in_concat. exists (k8_port [] n). split; [apply in_map; exact I|left; reflexivity].
    + destruct P as [P|(r & Ir & P)]; [discriminate P|]. exists (JDict (k8_range r ++ [("protocol", JStr (upper n))])). split; [|apply k8_range_says; auto].
      apply in_concat. exists (k8_port (r0 :: ports0) n). split; [apply in_map; exact I|]. exact (in_map (fun r => JDict (k8_range r ++ [("protocol", JStr (upper n))])) _ _ Ir).
Qed.
Lemma k8_peer_says exc n x : valid_list exc -> valid n -> addressable x -> block_says x (k8_peer exc n) <-> covers n x /\ ~ covered exc x.
Proof.
  intros Ve V On. unfold block_says, k8_peer. assert (Ve' : forall e, In e exc -> valid e) by (apply Forall_forall; exact Ve). destruct exc as [|e0 exc0].
  - cbn. split.
    + intros ((s & X & R) & _). injection X as <-. split; [apply range_text; auto|intros (e & [] & _)].
    + intros [C _]. split; [|exact Logic.I]. eexists. split; [reflexivity|]. apply range_text; auto.
  - set (exc := e0 :: exc0) in *. change (some exc) with true. cbn [path assoc String.eqb Ascii.eqb Bool.eqb]. cbn. split.
    + intros ((s & X & R) & l & Y & A). injection X as <-. split; [apply range_text; auto|]. intros (e & I & C). injection Y as <-.
      apply (A (prefixlen_text e)); [|apply range_text; auto]. exact (in_map (fun e => JStr (prefixlen_text e)) exc e I).
    + intros [C N]. split; [eexists; split; [reflexivity|apply range_text; auto]|]. eexists. split; [reflexivity|]. intros s I R.
      change (In (JStr s) (map (fun e => JStr (prefixlen_text e)) exc)) in I. apply in_map_iff in I. destruct I as (e & X & I). injection X as <-. apply N. exists e. split; [exact I|]. apply range_text; auto.
Qed.
Definition far_side (w : way) (t : term) : list net := match w with Ingress => t_destination_address t | Egress => t_source_address t end.
Lemma k8_init_accept w t b : k8_init (dir_of w) t = Ok b -> str_in "deny" (t_action t) = false ->
  fst (near_side w t) <> [] /\ far_side w t = [] /\ t_source_port t = [] /\
  ((snd (near_side w t) = [] /\ b = true) \/
   (snd (near_side w t) <> [] /\ exists l, address_list_exclude (fst (near_side w t)) (snd (near_side w t)) false = Ok l /\ b = some l)).
Proof.
  intros E D. unfold k8_init in E. destruct (k8_protocols _) as [[]|]; [|discriminate E]. cbn [bind] in E. rewrite D in E.
  destruct (k8_direction _ _) as [[]|] eqn:Ed; [|discriminate E]. cbn [bind] in E. destruct (some (t_source_port t)) eqn:Es; [discriminate E|]. apply some_false in Es.
  rewrite k8_side_near in E. destruct (near_side w t) as [inc exc] eqn:En. cbn [fst snd].
  assert (A : inc <> [] /\ far_side w t = []).
  { unfold k8_direction in Ed. destruct w; cbn in En; injection En as <- <-; cbn [dir_of] in Ed; [change (String.eqb "INGRESS" "INGRESS") with true in Ed|change (String.eqb "EGRESS" "INGRESS") with false in Ed]; cbv iota in Ed; cbn [far_side].
    - destruct (t_source_address t); [discriminate Ed|]. split; [discriminate|]. destruct (t_destination_address t); [reflexivity|discriminate Ed].
    - destruct (t_source_address t); [|discriminate Ed]. split; [|reflexivity]. destruct (t_destination_address t); discriminate. }
  destruct A as [A1 A2]. split; [exact A1|]. split; [exact A2|]. split; [exact Es|].
  destruct exc as [|e exc]; [left; cbn in E; apply ok_inj in E; auto|]. right. split; [discriminate|].
  destruct inc as [|n inc]; [contradiction A1; reflexivity|]. change (some (e :: exc) && some (n :: inc)) with true in E. cbv iota in E.
  destruct (address_list_exclude _ _ _) as [l|]; [|discriminate E]. cbn [bind] in E. apply ok_inj in E. exists l. auto.
Qed.
Lemma rule_paths w ports peers : path ["ports"] (JDict [("ports", ports); (peers_key w, peers)]) = Some ports /\ path [peers_key w] (JDict [("ports", ports); (peers_key w, peers)]) = Some peers.
Proof. destruct w; split; reflexivity. Qed.
Lemma k8_item_allows w c t j p : k8_dict (dir_of w) c t = Ok j -> str_in "deny" (t_action t) = false ->
  (item_allows w j p <->
   (let l := concat (map (k8_port (t_destination_port t)) (t_protocol t)) in l = [] \/ exists e, In e l /\ port_says p e) /\
   (fst (near_side w t) = [] \/ exists n, In n (fst (near_side w t)) /\ block_says (peer_of w p) (k8_peer (snd (near_side w t)) n))).
Proof.
  intros E D. destruct (k8_dict_paths _ _ _ _ E) as (_ & _ & _ & _ & _ & P). rewrite D in P. unfold item_allows. rewrite P. clear P. unfold rule_allows, one_says. cbv zeta.
  set (ports := concat _). set (inc := fst _). set (exc := snd _). destruct (rule_paths w (JList ports) (JList (map (k8_peer exc) inc))) as [R1 R2]. split.
  - intros (rules & r & X & I & H). injection X as <-. destruct I as [<-|[]]. rewrite R1, R2 in H. cbn [if_given] in H. destruct H as ((l1 & X1 & H1) & l2 & X2 & H2).
    injection X1 as <-. injection X2 as <-. split; [exact H1|]. destruct H2 as [H2|(e & I & S)]; [left; exact (map_eq_nil _ _ H2)|]. apply in_map_iff in I. destruct I as (n & <- & I). right. exists n. auto.
  - intros [H1 H2]. eexists _, _. split; [reflexivity|]. split; [left; reflexivity|]. rewrite R1, R2. cbn [if_given]. split; [exists ports; auto|]. eexists. split; [reflexivity|].
    destruct H2 as [->|(n & I & S)]; [left; reflexivity|]. right. exists (k8_peer exc n). split; [apply in_map; exact I|exact S].
Qed.
Lemma k8_deny_allows w w' c t j p : k8_dict (dir_of w) c t = Ok j -> str_in "deny" (t_action t) = true -> ~ item_allows w' j p.
Proof.
  intros E D (rules & r & X & _). destruct (k8_dict_paths _ _ _ _ E) as (_ & _ & _ & _ & P1 & P2). rewrite D in P2.
  destruct w, w'; solve [congruence | rewrite P1 in X; [discriminate X|discriminate]].
Qed.
Lemma k8_set_name n t : t_action (set_name n t) = t_action t /\ t_destination_port (set_name n t) = t_destination_port t /\ t_protocol (set_name n t) = t_protocol t /\ forall w, near_side w (set_name n t) = near_side w t.
Proof. split; [reflexivity|]. split; [reflexivity|]. split; [reflexivity|]. intros []; reflexivity. Qed.

(** ** Decisions *)
Lemma k8_block_allows w today t b p : k8_block (dir_of w) today t b -> counts today t -> k8_term_ok w t -> k8_traffic w p -> quiet "k8s" t -> t_icmp_type t = [] -> t_action t = ["accept"] ->
  (term_matches t p <-> exists j, In j b /\ item_allows w j p).
Proof.
  intros B [C1 C2] K T Q Ic Ac. destruct B as [([S|[S|S]] & _)|(_ & _ & _ & Op & B)].
  { rewrite (kt_reply _ _ K) in S. discriminate S. }
  { rewrite valid_expired in S. apply negb_true_iff in S. apply valid_force in C1. congruence. }
  { apply active_on_spec in C2. congruence. }
  assert (D : str_in "deny" (t_action t) = false) by (rewrite Ac; reflexivity).
  rewrite (quiet_matches _ t p Q (kq_platform _ _ T)), Op, Ic.
  pose proof (kt_side _ _ K) as Sub. pose proof Sub as (Vi & Ve & _). pose proof (kq_peer _ _ T) as On.
  assert (Vi' : forall n, In n (fst (near_side w t)) -> valid n) by (apply Forall_forall; exact Vi).
  assert (Si : exists b', k8_init (dir_of w) t = Ok b' /\ (exists j, In j b /\ item_allows w j p) = (exists j, In j b /\ item_allows w j p)) by (destruct B as [(B & _)|(B & _)]; eauto).
  destruct Si as (b' & Ei & _). destruct (k8_init_accept _ _ _ Ei D) as (I1 & I2 & I3 & I4). rewrite I3.
  assert (Split : (side_matches (t_source_address t) (t_source_address_exclude t) (p_src p) /\ side_matches (t_destination_address t) (t_destination_address_exclude t) (p_dst p)) <->
    covered (fst (near_side w t)) (peer_of w p) /\ ~ covered (snd (near_side w t)) (peer_of w p)).
  { pose proof (kt_far _ _ K) as Fx. destruct w; cbn [near_side fst snd peer_of far_side far_exclude] in *; rewrite I2, Fx; unfold side_matches; rewrite covered_nil.
    - split; [intros (([X|X] & Y) & _); [contradiction|auto]|]. intros [X Y]. split; [auto|]. split; [left; reflexivity|intros []].
    - split; [intros (_ & [X|X] & Y); [contradiction|auto]|]. intros [X Y]. split; [split; [left; reflexivity|intros []]|]. auto. }
  assert (Ports : any_or (t_protocol t) (eq (p_proto p)) /\ ports_match (t_destination_port t) (p_dport p) <-> (let l := concat (map (k8_port (t_destination_port t)) (t_protocol t)) in l = [] \/ exists e, In e l /\ port_says p e)).
  { symmetry. apply k8_ports_say; [apply (kt_protocol _ _ K)|apply (kt_ports _ _ K)]. }
  transitivity ((covered (fst (near_side w t)) (peer_of w p) /\ ~ covered (snd (near_side w t)) (peer_of w p)) /\ (any_or (t_protocol t) (eq (p_proto p)) /\ ports_match (t_destination_port t) (p_dport p))).
  { rewrite <- Split. split.
    - intros (A1 & A2 & A3 & _ & A4 & _). auto.
    - intros ((A1 & A2) & A3 & A4). split; [exact A1|]. split; [exact A2|]. split; [exact A3|]. split; [left; reflexivity|]. split; [exact A4|]. split; [intros o []|left; reflexivity]. }
  rewrite Ports. destruct B as [(B & ->)|(B & c & j & Ej & ->)].
  - split; [|intros (j & [] & _)]. intros ((A1 & A2) & _). exfalso. assert (b' = false) by congruence. subst b'. destruct I4 as [(_ & X)|(Ne & l & El & X)]; [discriminate X|].
    destruct (exclude_side _ _ (subtractable_excludable _ _ Sub) Ne) as (l' & El' & _ & Lo & _). assert (l' = l) by congruence. subst l'. destruct l; [|discriminate X].
    destruct (proj2 (Lo (peer_of w p)) (conj A1 A2)) as (n & [] & _).
  - destruct (k8_set_name (if String.eqb (dir_of w) "EGRESS" then append (t_name t) "-e" else t_name t) t) as (N1 & N2 & N3 & N4).
    pose proof (k8_item_allows w c _ j p Ej) as IA. rewrite N1, N2, N3, N4 in IA. specialize (IA D). split.
    + intros ((A1 & A2) & A3). exists j. split; [left; reflexivity|]. apply IA. split; [exact A3|]. right. destruct A1 as (n & I & Cn). exists n. split; [exact I|]. apply k8_peer_says; auto.
    + intros (j' & [<-|[]] & H). apply IA in H. destruct H as (H1 & [H2|(n & I & S)]); [contradiction|]. apply k8_peer_says in S; auto. destruct S as [S1 S2]. split; [|exact H1]. split; [exists n; auto|exact S2].
Qed.
Lemma matches_platform t p : p_platform p = "k8s" -> term_matches t p -> meant_for "k8s" t.
Proof.
  intros P (_ & _ & _ & _ & _ & _ & _ & (A & B & _) & _). rewrite P in *. split.
  - destruct A as [A|(q & I & <-)]; auto.
  - intros I. exact (B _ I eq_refl).
Qed.
Theorem k8_decides_as_policy today fs items w p : k8_policy today fs = Ok items ->
  (forall options hc terms, In ((options, hc), terms) fs -> header_way options w ->
    denies_last today terms /\ forall t, In t terms -> counts today t -> k8_term_ok w t) ->
  k8_traffic w p -> (exists item, In item items /\ applies w item) ->
  (k8_permits w items p <-> exists options hc terms, In ((options, hc), terms) fs /\ header_way options w /\ k8_policy_decides today terms p "accept").
Proof.
  intros E K T Some_. unfold k8_policy in E. destruct (check_tokens _ _ _) as [[]|] eqn:Ck; [|discriminate E]. cbn [bind] in E.
  pose proof (k8_filters_in _ _ _ E) as Ins.
  assert (Q : forall options hc terms t, In ((options, hc), terms) fs -> header_way options w -> In t terms -> counts today t -> quiet "k8s" t /\ t_icmp_type t = [] /\ (t_action t = ["accept"] \/ t_action t = ["deny"])).
  { intros options hc terms t If Hw It Ct. destruct (K _ _ _ If Hw) as [_ Kt]. specialize (Kt t It Ct). destruct Ct as [Ct Mf].
    assert (If' : In (["k8s"], terms) (map (fun f => (["k8s"], snd f)) fs)) by (apply in_map_iff; exists ((options, hc), terms); auto).
    destruct (kt_warned _ _ Kt) as (K1 & K2 & K3 & K4). destruct (kt_texts _ _ Kt) as [K5 K6].
    assert (Tk : forall s, str_in s ("owner" :: supported default_tokens) = false -> str_in s (supported k8_tokens) = false).
    { intros s Hs. destruct (str_in s (supported k8_tokens)) eqn:X; [|reflexivity]. exfalso.
      assert (Y : In s ("owner" :: supported default_tokens)); [|apply str_in_spec in Y; congruence]. apply str_in_spec, in_app_iff in X.
      destruct X as [X|[<-|[<-|[]]]]; [right; apply filter_In in X; apply X|right; apply str_in_spec; reflexivity|left; reflexivity]. }
    pose proof (unsupported_not_set "k8s" k8_tokens _ _ _ t Ck If' (or_introl eq_refl) It Mf) as U.
    assert (Ns : forall s, str_in s (supported k8_tokens) = false -> ~ In s (supported k8_tokens)) by (intros s Hs X; apply str_in_spec in X; congruence).
    split; [|split].
    - exact (accepted_quiet_owner "k8s" k8_tokens _ ["k8s"] terms t Tk Ck If' (or_introl eq_refl) It Mf K1 K2 K3 K4 K5 K6).
    - destruct U as (_ & _ & _ & _ & _ & _ & _ & _ & _ & _ & _ & _ & _ & _ & _ & _ & _ & _ & _ & U20 & _). apply U20, Ns. reflexivity.
    - destruct (sub_tokens_listed "k8s" k8_tokens _ _ _ t ["accept"; "deny"] Ck If' (or_introl eq_refl) It Mf) as (_ & Sa & _); [intros [X|[X|[]]]; discriminate X|].
      destruct (kt_action _ _ Kt) as (a & Ea). rewrite Ea in *. destruct (Sa eq_refl a (or_introl eq_refl)) as [<-|[<-|[]]]; auto. }
  split.
  - intros [No|(item & Ii & Ap & Al)]; [destruct Some_ as (item & I & A); exfalso; exact (No item I A)|].
    apply Ins in Ii. destruct Ii as (options & hc & terms & If & l & El & Il). destruct (k8_terms_blocks _ _ _ _ _ _ El) as (bs & -> & F).
    assert (Wy : exists w', k8_way options = dir_of w') by (destruct (in_dec string_dec "EGRESS" options) as [X|X]; [exists Egress|exists Ingress]; apply k8_way_spec; exact X).
    destruct Wy as (w' & Wy). rewrite Wy in F. destruct (concat_block _ _ _ F item Il) as (t & b & It & B & Ib).
    assert (w' = w /\ counts today t).
    { destruct B as [(_ & ->)|(_ & X1 & X2 & _ & [(_ & ->)|(_ & c & j & Ej & ->)])]; [destruct Ib|destruct Ib|]. destruct Ib as [<-|[]]. split; [symmetry; apply (k8_applies _ _ _ _ _ Ej); exact Ap|].
      split; [apply valid_force; rewrite valid_expired in X1; apply negb_false_iff; exact X1|apply active_on_spec; exact X2]. }
    destruct H as [-> Ct]. assert (Hw : header_way options w) by (apply k8_way_spec; exact Wy). exists options, hc, terms. split; [exact If|]. split; [exact Hw|].
    destruct (K _ _ _ If Hw) as [Dl Kt]. destruct (Q _ _ _ _ If Hw It Ct) as (Qt & Ic & [Ac|Ac]).
    + apply in_split in It. destruct It as (l1 & l2 & ->). exists l1, t, l2. split; [reflexivity|].
      assert (It : In t (l1 ++ t :: l2)) by (apply in_app_iff; right; left; reflexivity).
      split; [split; [apply Ct|]; split; [|exact Ac]; apply (proj2 (k8_block_allows w today t b p B Ct (Kt t It Ct) T Qt Ic Ac)); exists item; auto|].
      intros u a Iu (U1 & U2 & U3). assert (Cu : counts today u) by (split; [exact U1|exact (matches_platform _ _ (kq_platform _ _ T) U2)]).
      destruct (Q _ _ _ u If Hw ltac:(apply in_app_iff; auto) Cu) as (_ & _ & [Au|Au]); [congruence|]. exfalso.
      apply in_split in Iu. destruct Iu as (m1 & m2 & ->). rewrite <- app_assoc in Dl. cbn [app] in Dl.
      specialize (Dl m1 u (m2 ++ t :: l2) t eq_refl ltac:(apply in_app_iff; right; left; reflexivity) Cu Au Ct). congruence.
    + exfalso. destruct B as [(_ & ->)|(_ & _ & _ & _ & [(_ & ->)|(_ & c & j & Ej & ->)])]; [destruct Ib|destruct Ib|]. destruct Ib as [<-|[]].
      apply (k8_deny_allows w w _ _ _ p Ej); [|exact Al]. destruct (k8_set_name (if String.eqb (dir_of w) "EGRESS" then append (t_name t) "-e" else t_name t) t) as (N1 & _). rewrite N1, Ac. reflexivity.
  - intros (options & hc & terms & If & Hw & l1 & t & l2 & -> & (F1 & F2 & F3) & _). right.
    assert (It : In t (l1 ++ t :: l2)) by (apply in_app_iff; right; left; reflexivity).
    assert (Ct : counts today t) by (split; [exact F1|exact (matches_platform _ _ (kq_platform _ _ T) F2)]).
    destruct (K _ _ _ If Hw) as [_ Kt]. destruct (Q _ _ _ _ If Hw It Ct) as (Qt & Ic & _).
    destruct (k8_filters_each _ _ _ _ _ _ E If) as (l & El). destruct (k8_terms_blocks _ _ _ _ _ _ El) as (bs & -> & F). pose proof (proj1 (k8_way_spec options w) Hw) as Wy. rewrite Wy in F.
    destruct (concat_block_of _ _ _ F t It) as (b & B & Cb). destruct (proj1 (k8_block_allows w today t b p B Ct (Kt t It Ct) T Qt Ic F3) F2) as (j & Ij & Aj).
    exists j. split; [apply Ins; exists options, hc, (l1 ++ t :: l2); split; [exact If|]; eexists; split; [exact El|]; apply Cb, Ij|]. split; [|exact Aj].
    destruct B as [(_ & ->)|(_ & _ & _ & _ & [(_ & ->)|(_ & c & j' & Ej & ->)])]; [destruct Ij|destruct Ij|]. destruct Ij as [<-|[]]. apply (k8_applies _ _ _ _ _ Ej). reflexivity.
Qed.

(** ** What the API server takes *)
Lemma k8_port_accepted ports n : In n (map fst transport) -> (forall r, In r ports -> 1 <= fst r <= snd r /\ snd r <= 65535) -> forall e, In e (k8_port ports n) -> port_accepted e.
Proof.
  intros I P e Ie. assert (Pr : exists s, In (n, s) transport /\ s = upper n) by (eexists; split; [apply transport_upper; [exact I|reflexivity]|reflexivity]).
  destruct Pr as (s & Pr & Es). unfold port_accepted. destruct ports as [|r0 ports0].
  - destruct Ie as [<-|[]]. rewrite <- Es. split; [exists n, s; split; [reflexivity|exact Pr]|reflexivity].
  - apply in_map_iff in Ie. destruct Ie as (r & <- & Ir). specialize (P r Ir). rewrite <- Es. unfold k8_range. destruct (fst r =? snd r) eqn:E.
    + split; [exists n, s; split; [reflexivity|exact Pr]|]. cbn. exists (fst r). split; [reflexivity|]. lia.
    + split; [exists n, s; split; [reflexivity|exact Pr]|]. cbn. exists (fst r), (snd r). split; [reflexivity|]. split; [reflexivity|]. lia.
Qed.
Lemma covers_addressable n x : valid n -> covers n x -> addressable x.
Proof. exact (covers_range n x). Qed.
Lemma k8_peer_accepted exc n : valid_list exc -> valid n -> (forall e, In e exc -> strictly_inside e n) -> block_accepted (k8_peer exc n).
Proof.
  intros Ve V H. assert (Ve' : forall e, In e exc -> valid e) by (apply Forall_forall; exact Ve). unfold block_accepted, k8_peer. exists (prefixlen_text n). destruct exc as [|e0 exc0]; [split; [reflexivity|exact Logic.I]|].
  set (exc := e0 :: exc0) in *. change (some exc) with true. split; [reflexivity|]. cbn. eexists. split; [reflexivity|]. intros x I.
  change (In x (map (fun e => JStr (prefixlen_text e)) exc)) in I. apply in_map_iff in I. destruct I as (e & <- & I). exists (prefixlen_text e). split; [reflexivity|].
  destruct (H e I) as (S1 & a & S2 & S3). split.
  - intros b Ab R. apply range_text; [exact V|exact Ab|]. apply S1. apply (range_text e b (Ve' e I) Ab). exact R.
  - exists a. assert (Aa : addressable a) by exact (covers_addressable _ _ V S2). split; [exact Aa|]. split; [apply range_text; auto|]. intros R. apply S3. apply (range_text e a (Ve' e I) Aa). exact R.
Qed.
Lemma list_of_append a b : list_ascii_of_string (append a b) = list_ascii_of_string a ++ list_ascii_of_string b.
Proof. induction a as [|c a IH]; [reflexivity|]. cbn [append list_ascii_of_string app]. rewrite IH. reflexivity. Qed.
Theorem k8_accepted today fs items : k8_policy today fs = Ok items ->
  (forall options hc terms w t, In ((options, hc), terms) fs -> header_way options w -> In t terms -> counts today t -> k8_term_takes w t) ->
  forall item, In item items -> accepted_by_api item.
Proof.
  intros E K item Ii. unfold k8_policy in E. destruct (check_tokens _ _ _) as [[]|]; [|discriminate E]. cbn [bind] in E.
  apply (k8_filters_in _ _ _ E) in Ii. destruct Ii as (options & hc & terms & If & l & El & Il). destruct (k8_terms_blocks _ _ _ _ _ _ El) as (bs & -> & F).
  assert (Wy : exists w', k8_way options = dir_of w') by (destruct (in_dec string_dec "EGRESS" options) as [X|X]; [exists Egress|exists Ingress]; apply k8_way_spec; exact X).
  destruct Wy as (w & Wy). rewrite Wy in F. destruct (concat_block _ _ _ F item Il) as (t & b & It & B & Ib).
  destruct B as [(_ & ->)|(_ & X1 & X2 & _ & [(_ & ->)|(_ & c & j & Ej & ->)])]; [destruct Ib|destruct Ib|]. destruct Ib as [<-|[]].
  assert (Ct : counts today t) by (split; [apply valid_force; rewrite valid_expired in X1; apply negb_false_iff; exact X1|apply active_on_spec; exact X2]).
  specialize (K _ _ _ w t If (proj2 (k8_way_spec options w) Wy) It Ct).
  set (name := if String.eqb (dir_of w) "EGRESS" then append (t_name t) "-e" else t_name t) in *.
  destruct (k8_set_name name t) as (N1 & N2 & N3 & N4). destruct (k8_dict_paths _ _ _ _ Ej) as (P1 & P2 & _ & _ & P3 & P4). rewrite N1, N2, N3, N4 in P4.
  split; [exact P1|]. split; [exact P2|]. split.
  - destruct (k8_name_of _ _ _ _ Ej) as [Nm Ok_]. change (t_name (set_name name t)) with name in *. exists name. split; [exact Nm|]. apply k8_name_dns; [exact Ok_|].
    unfold name. pose proof (ka_name _ _ K) as D. destruct (String.eqb (dir_of w) "EGRESS"); [|exact D]. rewrite list_of_append, in_app_iff. intros [X|X]; [exact (D X)|]. cbn in X. destruct X as [X|[X|[]]]; discriminate X.
  - intros w'. assert (Dw : w' = w \/ w' <> w) by (destruct w, w'; (left; reflexivity) || (right; discriminate)). destruct Dw as [->|Nw]; [|rewrite (P3 w' Nw); exact Logic.I].
    rewrite P4. destruct (str_in "deny" (t_action t)); [exact Logic.I|]. unfold all_in. cbn [if_given]. eexists. split; [reflexivity|]. intros r [<-|[]].
    set (ports := concat _). set (peers := map _ _). destruct (rule_paths w (JList ports) (JList peers)) as [R1 R2]. rewrite R1, R2. cbn [if_given]. split.
    + exists ports. split; [reflexivity|]. intros e I. apply in_concat in I. destruct I as (l & I & Ie). apply in_map_iff in I. destruct I as (n & <- & I).
      exact (k8_port_accepted _ _ (ka_protocol _ _ K n I) (ka_ports _ _ K) e Ie).
    + exists peers. split; [reflexivity|]. intros e I. apply in_map_iff in I. destruct I as (n & <- & I). destruct (ka_side _ _ K) as (V1 & V2 & Si).
      apply k8_peer_accepted; [exact V2|exact (proj1 (Forall_forall _ _) V1 n I)|]. intros e Ie. exact (Si n e I Ie).
Qed.

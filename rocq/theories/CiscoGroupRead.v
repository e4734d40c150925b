(** The text of a policy with object groups, read back section by section. *)
From Coq Require Import Lia ZifyBool ZifyNat.
From Verif Require Import SpecCiscoRules BaseFacts PyStrFacts TextProofs WrapProofs CiscoProofs CiscoProofs2 CiscoTerm CiscoAcl CiscoDup.
Local Open Scope string_scope.
Local Open Scope list_scope.
Local Open Scope Z_scope.

(** ** Lines *)
Definition lns (l : list string) : list string := flat_map (split_char newline) l.
Lemma lns_app a b : lns (a ++ b) = lns a ++ lns b.
Proof. apply flat_map_app. Qed.
Lemma split_char_some c s : split_char c s <> [].
Proof. destruct s as [|d s]; [discriminate|]. cbn [split_char]. destruct (Ascii.eqb d c); [discriminate|]. destruct (split_char c s); discriminate. Qed.
Lemma split_char_join c a b : split_char c (a ++ String c b)%string = split_char c a ++ split_char c b.
Proof.
  induction a as [|d a IH]; cbn [append split_char].
  - rewrite Ascii.eqb_refl. reflexivity.
  - destruct (Ascii.eqb d c); [rewrite IH; reflexivity|]. rewrite IH.
    destruct (split_char c a) as [|h t] eqn:E; [destruct (split_char_some _ _ E)|]. reflexivity.
Qed.
Lemma split_join_lns l : l <> [] -> split_char newline (join lf l) = lns l.
Proof.
  induction l as [|x l IH]; [congruence|]. intros _. destruct l as [|y l].
  - cbn [join lns flat_map]. rewrite app_nil_r. reflexivity.
  - change (join lf (x :: y :: l)) with (x ++ lf ++ join lf (y :: l))%string. unfold lf at 1. cbn [append].
    rewrite split_char_join, IH by discriminate. reflexivity.
Qed.
Lemma split_plain s : has_char newline s = false -> split_char newline s = [s].
Proof.
  induction s as [|c s IH]; [reflexivity|]. cbn [has_char split_char]. intros H. apply orb_false_iff in H. destruct H as (H1 & H2).
  rewrite (IH H2). rewrite Ascii.eqb_sym in H1 || idtac. destruct (Ascii.eqb c newline) eqn:E; [|reflexivity].
  exfalso. apply Ascii.eqb_eq in E. subst c. vm_compute in H1. discriminate H1.
Qed.
Lemma lns_plain l : (forall x, In x l -> has_char newline x = false) -> lns l = l.
Proof.
  induction l as [|x l IH]; [reflexivity|]. intros H. cbn [lns flat_map]. rewrite split_plain by (apply H; left; reflexivity).
  cbn [app]. f_equal. apply IH. intros y I. apply H. right. exact I.
Qed.

(** ** Sections *)
Definition reads (ls : list string) (items : list citem) : Prop :=
  forall rest, read_config MOut (ls ++ rest) = option_map (app items) (read_config MOut rest).
Lemma reads_nil : reads [] [].
Proof. intros rest. cbn [app]. destruct (read_config MOut rest); reflexivity. Qed.
Lemma reads_app a b i j : reads a i -> reads b j -> reads (a ++ b) (i ++ j).
Proof.
  intros A B rest. rewrite <- app_assoc, A, B. destruct (read_config MOut rest); cbn [option_map]; [rewrite app_assoc|]; reflexivity.
Qed.
Lemma reads_all ls items : reads ls items -> read_config MOut ls = Some items.
Proof. intros H. specialize (H []). rewrite app_nil_r in H. rewrite H. cbn [read_config option_map]. rewrite app_nil_r. reflexivity. Qed.
Lemma reads_blank : reads [""] [].
Proof. intros rest. cbn [app read_config is_empty]. destruct (read_config MOut rest); reflexivity. Qed.
Lemma reads_other line : is_empty line = false -> starts_with "object-group" line = false -> acl_head line = None -> reads [line] [COther line].
Proof.
  intros E O A rest. cbn [app read_config]. rewrite E, O, A. destruct (read_config MOut rest); reflexivity.
Qed.
Definition shifted (line : string) : Prop := exists s, line = String " " s.
Lemma shifted_kind line : shifted line -> starts_with "exit" line = false /\ starts_with "object-group" line = false /\ is_empty line = false /\ acl_head line = None.
Proof. intros (s & ->). repeat split; reflexivity. Qed.
Lemma read_members f n body rest : Forall shifted body -> forall ls,
  read_config (MGroup f n ls) (body ++ "exit" :: rest) = option_map (cons (CGroup f n (ls ++ body))) (read_config MOut rest).
Proof.
  induction 1 as [|x body Ix F IH]; intros ls.
  - cbn [app read_config]. rewrite app_nil_r. reflexivity.
  - cbn [app read_config]. destruct (shifted_kind x Ix) as (-> & -> & -> & ->). cbn [orb]. rewrite IH, <- app_assoc. reflexivity.
Qed.
Lemma read_ports_members n body rest : Forall shifted body -> forall ls,
  read_config (MPorts n ls) (body ++ "exit" :: rest) = option_map (cons (CPorts n (ls ++ body))) (read_config MOut rest).
Proof.
  induction 1 as [|x body Ix F IH]; intros ls.
  - cbn [app read_config]. rewrite app_nil_r. reflexivity.
  - cbn [app read_config]. destruct (shifted_kind x Ix) as (-> & -> & -> & ->). cbn [orb]. rewrite IH, <- app_assoc. reflexivity.
Qed.
Lemma one_word_head w : one_word w -> split_ws w = [w]. Proof. exact (fun H => H). Qed.
Lemma reads_group fam name body : In fam ["ipv4"; "ipv6"] -> one_word name -> Forall shifted body ->
  reads (("object-group network " ++ fam ++ " " ++ name)%string :: body ++ ["exit"; ""]) [CGroup fam name body].
Proof.
  intros Hf Hn F rest. cbn [app]. rewrite <- app_assoc. cbn [app].
  set (line := ("object-group network " ++ fam ++ " " ++ name)%string).
  assert (S : split_ws line = ["object-group"; "network"; fam; name]).
  { unfold line. change ("object-group network " ++ fam ++ " " ++ name)%string with ("object-group" ++ " " ++ ("network" ++ " " ++ (fam ++ " " ++ name)))%string.
    rewrite !split_ws_space, Hn. destruct Hf as [<-|[<-|[]]]; reflexivity. }
  cbn [read_config]. change (is_empty line) with false. change (starts_with "object-group" line) with true. cbv iota.
  unfold group_head. rewrite S. change (String.eqb "object-group" "object-group") with true. change (String.eqb "network" "network") with true.
  cbn [andb]. rewrite (proj2 (str_in_iff _ _) Hf). rewrite read_members by exact F. cbn [app].
  cbn [read_config is_empty]. destruct (read_config MOut rest); reflexivity.
Qed.
Lemma reads_ports name body : one_word name -> Forall shifted body ->
  reads (("object-group port " ++ name)%string :: body ++ ["exit"; ""]) [CPorts name body].
Proof.
  intros Hn F rest. cbn [app]. rewrite <- app_assoc. cbn [app].
  set (line := ("object-group port " ++ name)%string).
  assert (S : split_ws line = ["object-group"; "port"; name]).
  { unfold line. change ("object-group port " ++ name)%string with ("object-group" ++ " " ++ ("port" ++ " " ++ name))%string.
    rewrite !split_ws_space, Hn. reflexivity. }
  cbn [read_config]. change (is_empty line) with false. change (starts_with "object-group" line) with true. cbv iota.
  unfold group_head. rewrite S. change (String.eqb "object-group" "object-group") with true. change (String.eqb "port" "port") with true.
  cbn [andb]. rewrite read_ports_members by exact F. cbn [app].
  cbn [read_config is_empty]. destruct (read_config MOut rest); reflexivity.
Qed.
Definition words_of (body : list string) : list (list string) := filter (fun ws => some ws) (map split_ws body).
Lemma words_app a b : words_of (a ++ b) = words_of a ++ words_of b.
Proof. unfold words_of. rewrite map_app, filter_app. reflexivity. Qed.
Lemma read_rules f h body rest : Forall (fun l => shifted l \/ l = "") body -> forall rs,
  read_config (MAcl f h rs) (body ++ "exit" :: rest) = option_map (cons (CAcl f h (rs ++ words_of body))) (read_config MOut rest).
Proof.
  induction 1 as [|x body Ix F IH]; intros rs.
  - cbn [app read_config]. rewrite app_nil_r. reflexivity.
  - cbn [app read_config]. destruct Ix as [Ix| ->].
    + destruct (shifted_kind x Ix) as (-> & -> & _ & ->). unfold words_of. cbn [map filter]. destruct (split_ws x) as [|w ws] eqn:E.
      * rewrite IH. reflexivity.
      * rewrite IH, <- app_assoc. reflexivity.
    + exact (IH rs).
Qed.
Lemma reads_acl f head body : acl_head head = Some f -> Forall (fun l => shifted l \/ l = "") body ->
  reads (head :: body ++ ["exit"; ""]) [CAcl f head (words_of body)].
Proof.
  intros H F rest. cbn [app]. rewrite <- app_assoc. cbn [app]. cbn [read_config].
  destruct (acl_excl _ _ H) as (_ & -> & ->). rewrite H, read_rules by exact F. cbn [app read_config is_empty].
  destruct (read_config MOut rest); reflexivity.
Qed.

(** ** Groups *)
Definition member_lines (v : ver) (l : list net) : list string :=
  map (fun m => (" " ++ addr_text (nver m) (naddr m) ++ "/" ++ dec (nlen m))%string) (address_of_version l (Some v)).
Definition port_line (p : prange) : string :=
  if negb (fst p =? snd p) then (" range " ++ dec (fst p) ++ " " ++ dec (snd p))%string else (" eq " ++ dec (fst p))%string.
(** The groups of a family that these terms need: sides and ports *)
Definition side_of (ts : list term) (l : list net) : Prop := exists t, In t ts /\ In l [t_source_address t; t_destination_address t].
Definition port_of (ts : list term) (r : prange) : Prop := exists t, In t ts /\ In r (t_source_port t ++ t_destination_port t).
Definition af_of (v : ver) : Z := match v with V4 => 4 | V6 => 6 end.
Lemma version_af v : version_of (af_of v) = v. Proof. destruct v; reflexivity. Qed.
Lemma no_ws_line w : no_ws w -> has_char newline w = false.
Proof. intros H. apply clean_no_newline, no_ws_clean, H. Qed.
Lemma word_line w : one_word w -> has_char newline w = false.
Proof. intros H. apply clean_no_newline, good_clean, H. Qed.
Lemma word_no_ws w : one_word w -> no_ws w /\ w <> "".
Proof.
  intros H. assert (I : In w (split_ws w)) by (rewrite H; left; reflexivity). apply split_ws_words in I. destruct I as (A & B & _). auto.
Qed.
Lemma no_ws_word w : no_ws w -> w <> "" -> one_word w.
Proof. intros A B. exact (split_ws_word w A B). Qed.
Lemma split_exit : split_char newline ("exit" ++ lf) = ["exit"; ""]. Proof. reflexivity. Qed.
Lemma member_line_plain v l x : valid_list l -> In x (member_lines v l) -> shifted x /\ has_char newline x = false.
Proof.
  intros V I. unfold member_lines in I. apply in_map_iff in I. destruct I as (m & <- & I).
  destruct (version_valid l v V) as (V' & _). unfold valid_list in V'. rewrite Forall_forall in V'. destruct (V' m I) as (Hl & _).
  split; [eexists; reflexivity|]. rewrite !has_char_app, (no_ws_line _ (addr_text_no_ws _ _)), (no_ws_line _ (dec_no_ws _ (proj1 Hl))). reflexivity.
Qed.
Definition group_item (v : ver) (l : list net) : citem := CGroup (family_name v) (first_name l) (member_lines v l).
Lemma network_group_reads v seen l out seen' : side_ok v l -> network_group (af_of v) seen l = (out, seen') ->
  exists items, reads (lns out) items /\
    ((items = [] /\ seen' = seen /\ (address_of_version l (Some v) = [] \/ In (first_name l) seen)) \/
     (items = [group_item v l] /\ seen' = first_name l :: seen /\ address_of_version l (Some v) <> [] /\ ~ In (first_name l) seen)).
Proof.
  intros (V & W & N) H. unfold network_group in H. rewrite version_af in H.
  destruct (address_of_version l (Some v)) as [|n r] eqn:E.
  - injection H as <- <-. exists []. split; [exact reads_nil|]. left. auto.
  - specialize (N n r E). destruct (str_in (nptoken n) seen) eqn:S.
    + injection H as <- <-. exists []. split; [exact reads_nil|]. left. apply str_in_iff in S. rewrite N in S. auto.
    + apply pair_equal_spec in H. destruct H as (<- & <-). exists [group_item v l]. rewrite ?N. split; [|right; split; [reflexivity|split; [reflexivity|split; [discriminate|rewrite N in S; apply str_in_false, S]]]].
      assert (Nl : l <> []) by (intros ->; discriminate E). destruct (W Nl) as (W1 & W2).
      match goal with |- reads (lns ?L) _ => assert (X : lns L = ("object-group network " ++ family_name v ++ " " ++ first_name l)%string :: member_lines v l ++ ["exit"; ""]) end.
      { change (map _ (n :: r)) with (map (fun m => (" " ++ addr_text (nver m) (naddr m) ++ "/" ++ dec (nlen m))%string) (n :: r)).
        rewrite <- E. fold (member_lines v l).
        change (?a :: member_lines v l ++ ?b) with ([a] ++ member_lines v l ++ b). rewrite !lns_app.
        rewrite (lns_plain (member_lines v l)) by (intros x I; exact (proj2 (member_line_plain v l x V I))).
        rewrite (lns_plain [_]).
        - destruct v; reflexivity.
        - intros x [<-|[]]. rewrite !has_char_app, (word_line _ W1). destruct v; reflexivity. }
      rewrite X. apply reads_group; [destruct v; cbn; tauto|exact W1|]. apply Forall_forall. intros x I. exact (proj1 (member_line_plain v l x V I)).
Qed.
Lemma port_key_word r : 0 <= fst r -> 0 <= snd r -> one_word (port_key r).
Proof.
  intros A B. apply no_ws_word.
  - unfold port_key, no_ws. rewrite !forall_char_app. rewrite (dec_no_ws _ A : forall_char _ _ = true), (dec_no_ws _ B : forall_char _ _ = true). reflexivity.
  - unfold port_key. destruct (dec (fst r)); discriminate.
Qed.
Definition port_item (r : prange) : citem := CPorts (port_key r) [port_line r].
Definition port_named (n : string) (items : list citem) : Prop := exists ls, In (CPorts n ls) items.
Definition net_named (v : ver) (n : string) (items : list citem) : Prop := exists ls, In (CGroup (family_name v) n ls) items.
Lemma port_groups_reads ports : (forall r, In r ports -> 0 <= fst r /\ 0 <= snd r) -> forall seen out seen', port_groups seen ports = (out, seen') ->
  exists items, reads (lns out) items /\
    (forall i, In i items -> exists r, In r ports /\ i = port_item r) /\
    (forall r, In r ports -> In (port_key r) seen \/ port_named (port_key r) items) /\
    (forall s, In s seen' -> In s seen \/ port_named s items).
Proof.
  induction ports as [|r ports IH]; intros P seen out seen' H.
  - cbn [port_groups] in H. injection H as <- <-. exists []. split; [exact reads_nil|]. split; [intros i []|]. split; [intros r []|auto].
  - cbn [port_groups] in H. assert (P' : forall r, In r ports -> 0 <= fst r /\ 0 <= snd r) by (intros q I; apply P; right; exact I).
    destruct (str_in (port_key r) seen) eqn:S.
    + destruct (IH P' _ _ _ H) as (items & R & A & B & C). exists items. split; [exact R|]. split.
      { intros i I. destruct (A i I) as (q & Iq & E). exists q. split; [right; exact Iq|exact E]. }
      split; [|exact C]. intros q [<-|I]; [left; apply str_in_iff, S|exact (B q I)].
    + destruct (port_groups (port_key r :: seen) ports) as [more seen0] eqn:E. apply pair_equal_spec in H. destruct H as (<- & <-).
      destruct (IH P' _ _ _ E) as (items & R & A & B & C). destruct (P r (or_introl eq_refl)) as (P1 & P2).
      exists (port_item r :: items). split.
      { match goal with |- reads (lns ?L) _ => assert (X : lns L = (("object-group port " ++ port_key r)%string :: [port_line r] ++ ["exit"; ""]) ++ lns more) end.
        { change (?a :: ?b :: ?c :: more) with ([a; b; c] ++ more). rewrite lns_app. f_equal. fold (port_line r).
          change [?a; ?b; ?c] with ([a; b] ++ [c]). rewrite lns_app. rewrite (lns_plain [_; _]); [reflexivity|].
          intros x [<-|[<-|[]]].
          - rewrite !has_char_app, (word_line _ (port_key_word r P1 P2)). reflexivity.
          - unfold port_line. destruct (fst r =? snd r); cbn [negb]; rewrite !has_char_app, ?(no_ws_line _ (dec_no_ws _ P1)), ?(no_ws_line _ (dec_no_ws _ P2)); reflexivity. }
        rewrite X. change (port_item r :: items) with ([port_item r] ++ items). apply reads_app; [|exact R].
        apply reads_ports; [exact (port_key_word r P1 P2)|]. constructor; [|constructor].
        unfold port_line. destruct (fst r =? snd r); eexists; reflexivity. }
      assert (N : port_named (port_key r) (port_item r :: items)) by (eexists; left; reflexivity).
      assert (M : forall s, port_named s items -> port_named s (port_item r :: items)) by (intros s (ls & I); exists ls; right; exact I).
      split; [|split].
      * intros i [<-|I]; [exists r; split; [left; reflexivity|reflexivity]|]. destruct (A i I) as (q & Iq & Eq). exists q. split; [right; exact Iq|exact Eq].
      * intros q [<-|I]; [right; exact N|]. destruct (B q I) as [[J|J]|J]; [|left; exact J|right; apply M, J]. right. rewrite <- J. exact N.
      * intros s I. destruct (C s I) as [[J|J]|J]; [right; rewrite <- J; exact N|left; exact J|right; apply M, J].
Qed.
Lemma NoDup_join {A} (a b : list A) : NoDup a -> NoDup b -> (forall x, In x a -> In x b -> False) -> NoDup (a ++ b).
Proof.
  induction a as [|x a IH]; intros Na Nb D; [exact Nb|]. inversion Na; subst. cbn [app]. constructor.
  - intros I. apply in_app_or in I. destruct I as [I|I]; [contradiction|]. exact (D x (or_introl eq_refl) I).
  - apply IH; [assumption|assumption|]. intros y I J. exact (D y (or_intror I) J).
Qed.
Lemma definitions_read v terms : (forall t, In t terms -> group_term_ok v t) -> forall nets ports,
  exists items, reads (lns (group_definitions (af_of v) nets ports terms)) items /\
    (forall i, In i items -> (exists l, side_of terms l /\ address_of_version l (Some v) <> [] /\ i = group_item v l) \/ (exists r, port_of terms r /\ i = port_item r)) /\
    (forall l, side_of terms l -> address_of_version l (Some v) <> [] -> In (first_name l) nets \/ net_named v (first_name l) items) /\
    (forall r, port_of terms r -> In (port_key r) ports \/ port_named (port_key r) items) /\
    (NoDup (map fst (groups_of (family_name v) items)) /\ forall n, In n (map fst (groups_of (family_name v) items)) -> ~ In n nets).
Proof.
  induction terms as [|t rest IH]; intros K nets ports.
  - exists []. split; [exact reads_nil|]. split; [intros i []|]. split; [intros l (t & [] & _)|]. split; [intros r (t & [] & _)|]. split; [constructor|intros n []].
  - cbn [group_definitions]. pose proof (K t (or_introl eq_refl)) as Kt.
    destruct (network_group (af_of v) nets (t_source_address t)) as [g1 n1] eqn:E1.
    destruct (network_group (af_of v) n1 (t_destination_address t)) as [g2 n2] eqn:E2.
    destruct (port_groups ports (t_source_port t ++ t_destination_port t)) as [g3 p1] eqn:E3.
    destruct (network_group_reads _ _ _ _ _ (gt_src _ _ Kt) E1) as (i1 & R1 & S1).
    destruct (network_group_reads _ _ _ _ _ (gt_dst _ _ Kt) E2) as (i2 & R2 & S2).
    destruct (port_groups_reads _ (gt_ports _ _ Kt) _ _ _ E3) as (i3 & R3 & A3 & B3 & C3).
    destruct (IH (fun t' I => K t' (or_intror I)) n2 p1) as (i4 & R4 & A4 & B4 & C4 & D4 & E4).
    exists (i1 ++ i2 ++ i3 ++ i4). rewrite !lns_app. split; [repeat apply reads_app; assumption|].
    assert (N1 : forall n, In n n1 -> In n nets \/ net_named v n (i1 ++ i2 ++ i3 ++ i4)).
    { intros n I. destruct S1 as [(_ & -> & _)|(-> & -> & _)]; [left; exact I|]. destruct I as [<-|I]; [right|left; exact I].
      eexists. left. reflexivity. }
    assert (N2 : forall n, In n n2 -> In n nets \/ net_named v n (i1 ++ i2 ++ i3 ++ i4)).
    { intros n I. destruct S2 as [(_ & -> & _)|(-> & -> & _)]; [apply N1, I|]. destruct I as [<-|I]; [right|apply N1, I].
      eexists. apply in_or_app. right. apply in_or_app. left. left. reflexivity. }
    split; [|split; [|split]].
    + intros i I. apply in_app_or in I. destruct I as [I|I].
      { destruct S1 as [(-> & _)|(-> & _ & Ne & _)]; [destruct I|]. destruct I as [<-|[]]. left. eexists. split; [|split; [exact Ne|reflexivity]].
        exists t. split; [left; reflexivity|left; reflexivity]. }
      apply in_app_or in I. destruct I as [I|I].
      { destruct S2 as [(-> & _)|(-> & _ & Ne & _)]; [destruct I|]. destruct I as [<-|[]]. left. eexists. split; [|split; [exact Ne|reflexivity]].
        exists t. split; [left; reflexivity|right; left; reflexivity]. }
      apply in_app_or in I. destruct I as [I|I].
      { destruct (A3 i I) as (r & Ir & E). right. exists r. split; [|exact E]. exists t. split; [left; reflexivity|exact Ir]. }
      destruct (A4 i I) as [(l & (t' & It & Il) & E)|(r & (t' & It & Ir) & E)]; [left; exists l|right; exists r]; (split; [|exact E]);
        exists t'; (split; [right; exact It|assumption]).
    + intros l (t' & [<-|It] & Il) Nl.
      * destruct Il as [<-|[<-|[]]].
        -- destruct S1 as [(_ & _ & [E|I])|(-> & _)]; [congruence|left; exact I|]. right. eexists. left. reflexivity.
        -- destruct S2 as [(_ & _ & [E|I])|(-> & _)]; [congruence|apply N1, I|]. right. eexists. apply in_or_app. right. apply in_or_app. left. left. reflexivity.
      * destruct (B4 l (ex_intro _ t' (conj It Il)) Nl) as [I|(ls & I)]; [apply N2, I|]. right. exists ls.
        apply in_or_app. right. apply in_or_app. right. apply in_or_app. right. exact I.
    + assert (M3 : forall s, port_named s i3 -> port_named s (i1 ++ i2 ++ i3 ++ i4)).
      { intros s (ls & I). exists ls. apply in_or_app. right. apply in_or_app. right. apply in_or_app. left. exact I. }
      intros r (t' & [<-|It] & Ir).
      * destruct (B3 r Ir) as [I|I]; [left; exact I|right; apply M3, I].
      * destruct (C4 r (ex_intro _ t' (conj It Ir))) as [I|(ls & I)].
        -- destruct (C3 _ I) as [J|J]; [left; exact J|right; apply M3, J].
        -- right. exists ls. apply in_or_app. right. apply in_or_app. right. apply in_or_app. right. exact I.
    + assert (G3 : groups_of (family_name v) i3 = []).
      { clear - A3. induction i3 as [|i i3 IH]; [reflexivity|]. unfold groups_of. cbn [flat_map]. destruct (A3 i (or_introl eq_refl)) as (r & _ & ->).
        cbn [app]. apply IH. intros j I. apply A3. right. exact I. }
      rewrite !groups_app, G3. cbn [app]. rewrite !map_app.
      assert (G1 : groups_of (family_name v) [group_item v (t_source_address t)] = [(first_name (t_source_address t), member_lines v (t_source_address t))]).
      { unfold groups_of, group_item. cbn [flat_map]. rewrite String.eqb_refl. reflexivity. }
      assert (G2 : groups_of (family_name v) [group_item v (t_destination_address t)] = [(first_name (t_destination_address t), member_lines v (t_destination_address t))]).
      { unfold groups_of, group_item. cbn [flat_map]. rewrite String.eqb_refl. reflexivity. }
      assert (X1 : NoDup (map fst (groups_of (family_name v) i1)) /\ (forall n, In n (map fst (groups_of (family_name v) i1)) -> ~ In n nets /\ In n n1) /\ incl nets n1).
      { destruct S1 as [(-> & -> & _)|(-> & -> & _ & Ns)]; [split; [constructor|]; split; [intros n []|apply incl_refl]|]. rewrite G1. split; [constructor; [intros []|constructor]|].
        split; [intros n [<-|[]]; split; [exact Ns|left; reflexivity]|apply incl_tl, incl_refl]. }
      assert (X2 : NoDup (map fst (groups_of (family_name v) i2)) /\ (forall n, In n (map fst (groups_of (family_name v) i2)) -> ~ In n n1 /\ In n n2) /\ incl n1 n2).
      { destruct S2 as [(-> & -> & _)|(-> & -> & _ & Ns)]; [split; [constructor|]; split; [intros n []|apply incl_refl]|]. rewrite G2. split; [constructor; [intros []|constructor]|].
        split; [intros n [<-|[]]; split; [exact Ns|left; reflexivity]|apply incl_tl, incl_refl]. }
      destruct X1 as (Y1 & Y2 & Y3). destruct X2 as (Z1 & Z2 & Z3). split.
      * apply NoDup_join; [exact Y1|apply NoDup_join; [exact Z1|exact D4|]|].
        -- intros n I J. apply (E4 n J). apply Z2, I.
        -- intros n I J. apply in_app_or in J. destruct J as [J|J]; [apply (proj1 (Z2 n J)), Y2, I|]. apply (E4 n J), Z3, Y2, I.
      * intros n I. apply in_app_or in I. destruct I as [I|I]; [apply Y2, I|]. apply in_app_or in I. destruct I as [I|I] ; intros J.
        -- apply (proj1 (Z2 n I)), Y3, J.
        -- apply (E4 n I), Z3, Y3, J.
Qed.

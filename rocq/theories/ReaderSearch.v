(** Proofs about searching the policies that were read. *)
From Coq Require Import Lia Relations.
From Verif Require Import SpecReader BaseFacts PyStrFacts LoadProofs ParentProofs IpParentProofs.
Local Open Scope string_scope.
Local Open Scope list_scope.

Lemma numbered_in {A} (l : list A) : forall s k x, In (k, x) (combine (seq s (List.length l)) l) <-> exists j, k = (s + j)%nat /\ nth_error l j = Some x.
Proof.
  induction l as [|y l IH]; intros s k x; cbn [List.length seq combine].
  - split; [intros []|]. intros (j & _ & E). destruct j; discriminate E.
  - split.
    + intros [E|I]; [injection E as <- <-; exists O; split; [lia|reflexivity]|]. apply IH in I. destruct I as (j & -> & E). exists (S j). split; [lia|exact E].
    + intros (j & -> & E). destruct j as [|j]; [left; injection E as <-; f_equal; lia|]. right. apply IH. exists j. split; [lia|exact E].
Qed.
Lemma numbered_nth {A} (l : list A) k x : In (k, x) (numbered_list l) <-> nth_error l k = Some x.
Proof. unfold numbered_list. rewrite numbered_in. split; [intros (j & -> & E); exact E|intros E; exists k; auto]. Qed.
Lemma found_in dps sps ds ss fs i j : In (i, j) (found_terms dps sps ds ss fs) <-> exists f t, nth_error fs i = Some f /\ nth_error (rf_terms f) j = Some t /\
  wanted dps (rt_dport t) = true /\ wanted sps (rt_sport t) = true /\ wanted ds (rt_destination t) = true /\ wanted ss (rt_source t) = true.
Proof.
  unfold found_terms. rewrite in_flat_map. split.
  - intros ([i' f] & I & J). apply in_map_iff in J. destruct J as ([j' t] & E & J). injection E as <- <-. apply filter_In in J. destruct J as [J W]. cbn [fst snd] in *.
    apply numbered_nth in I, J. apply andb_true_iff in W. destruct W as [W W4]. apply andb_true_iff in W. destruct W as [W W3]. apply andb_true_iff in W. destruct W as [W1 W2].
    exists f, t. auto 10.
  - intros (f & t & I & J & W1 & W2 & W3 & W4). exists (i, f). split; [apply numbered_nth, I|]. apply in_map_iff. exists (j, t). split; [reflexivity|].
    apply filter_In. split; [apply numbered_nth, J|]. cbn [snd]. rewrite W1, W2, W3, W4. reflexivity.
Qed.
Lemma wanted_some ps listed : ps <> [] -> (wanted ps listed = true <-> exists T, In T ps /\ In T listed).
Proof.
  intros N. unfold wanted. destruct ps as [|p ps]; [congruence|]. rewrite existsb_exists. split; intros (T & A & B); exists T; (split; [exact A|apply str_in_spec, B]).
Qed.
Lemma service_wanted t fuel q ps listed : well_formed t -> (forall T v c, entry_value t T v c -> has_definition t v -> exists items, In (T, items) t /\ In v items) ->
  port_tokens fuel t q = Ok ps -> known_service t q -> (wanted ps listed = true <-> asks_service t q listed).
Proof.
  intros WF Bare E K. unfold port_tokens in E. unfold asks_service. destruct q as [|c q].
  - injection E as <-. split; [left; reflexivity|reflexivity].
  - cbn [is_empty] in E. destruct K as [K|(T & K)]; [discriminate K|].
    assert (X : forall T, In T ps <-> contains_value t (String c q) T) by (intros T'; split; [exact (get_parents_sound t WF _ _ _ T' E)|exact (get_parents_complete t WF Bare _ _ _ E T')]).
    rewrite wanted_some; [|intros N; apply X in K; rewrite N in K; destruct K]. split.
    + intros (T' & A & B). right. exists T'. split; [exact B|apply X, A].
    + intros [A|(T' & A & B)]; [discriminate A|]. exists T'. split; [apply X, B|exact A].
Qed.
Lemma remove_first_in s l : NoDup l -> In s l -> exists l', remove_first s l = Some l' /\ NoDup l' /\ forall x, In x l' <-> In x l /\ x <> s.
Proof.
  induction l as [|y l IH]; intros N I; [destruct I|]. inversion N as [|y' l' Ny Nl]; subst. cbn [remove_first]. destruct (String.eqb_spec y s) as [->|D].
  - exists l. split; [reflexivity|]. split; [exact Nl|]. intros x. split; [intros J; split; [right; exact J|intros ->; exact (Ny J)]|intros [[<-|J] X]; [congruence|exact J]].
  - destruct I as [I|I]; [congruence|]. destruct (IH Nl I) as (l' & E & N' & X). exists (y :: l'). rewrite E. split; [reflexivity|]. split.
    + constructor; [intros J; apply X in J; exact (Ny (proj1 J))|exact N'].
    + intros x. cbn [In]. rewrite X. split; [intros [<-|[A B]]; auto|intros [[<-|A] B]; auto].
Qed.
Lemma remove_first_none s l : remove_first s l = None -> ~ In s l.
Proof.
  induction l as [|y l IH]; intros E; [intros []|]. cbn [remove_first] in E. destruct (String.eqb_spec y s) as [|D]; [discriminate E|].
  destruct (remove_first s l); [discriminate E|]. intros [I|I]; [exact (D I)|exact (IH eq_refl I)].
Qed.
Lemma drop_any_in l : NoDup l -> (In "RESERVED" l -> In "ANY" l) -> forall x, In x (drop_any l) <-> In x l /\ x <> "ANY" /\ x <> "RESERVED".
Proof.
  intros N R x. unfold drop_any. destruct (remove_first "ANY" l) as [l1|] eqn:E1.
  - assert (I : In "ANY" l) by (destruct (in_dec string_dec "ANY" l) as [I|I]; [exact I|exfalso; clear - E1 I; revert l1 E1; induction l as [|y l IH]; intros l1 E1; [discriminate E1|];
      cbn [remove_first] in E1; destruct (String.eqb_spec y "ANY") as [->|D]; [apply I; left; reflexivity|]; destruct (remove_first "ANY" l) as [l2|]; [|discriminate E1]; exact (IH (fun J => I (or_intror J)) l2 eq_refl)]).
    destruct (remove_first_in _ _ N I) as (l' & E & N' & X). assert (l' = l1) by congruence. subst l'. clear E E1.
    destruct (remove_first "RESERVED" l1) as [l2|] eqn:E2.
    + assert (J : In "RESERVED" l1) by (destruct (in_dec string_dec "RESERVED" l1) as [J|J]; [exact J|exfalso; clear - E2 J; revert l2 E2; induction l1 as [|y l IH]; intros l2 E1; [discriminate E1|];
        cbn [remove_first] in E1; destruct (String.eqb_spec y "RESERVED") as [->|D]; [apply J; left; reflexivity|]; destruct (remove_first "RESERVED" l) as [l3|]; [|discriminate E1]; exact (IH (fun K => J (or_intror K)) l3 eq_refl)]).
      destruct (remove_first_in _ _ N' J) as (l' & E & _ & Y). assert (l' = l2) by congruence. subst l'. rewrite Y, X. tauto.
    + apply remove_first_none in E2. rewrite X. split; [intros [A B]|tauto]. split; [exact A|]. split; [exact B|]. intros ->. apply E2, X. auto.
  - apply remove_first_none in E1. split; [intros A|tauto]. split; [exact A|]. split; intros ->; auto.
Qed.
Lemma address_wanted t parse_ip fuel q ps listed : well_formed t -> address_tokens fuel parse_ip t q = Ok ps -> known_address parse_ip t q ->
  (wanted ps listed = true <-> asks_address parse_ip t q listed).
Proof.
  intros WF E K. unfold address_tokens in E. unfold asks_address. destruct q as [|c q].
  - injection E as <-. split; [left; reflexivity|reflexivity].
  - cbn [is_empty] in E. destruct K as [K|[D K]]; [discriminate K|]. set (qq := String c q) in *. unfold address_parents in E.
    assert (Dg : digit_first qq = true) by (destruct D as (c' & r & -> & D); exact D). rewrite Dg in E. clear D Dg.
    destruct (parse_ip qq) as [n|] eqn:P; [|discriminate E]. destruct (ip_parents fuel parse_ip t n) as [l|] eqn:I; [|discriminate E]. injection E as <-.
    destruct (K n eq_refl) as [(T0 & C0 & A0 & R0) Kr].
    assert (Nd : NoDup l) by (unfold ip_parents in I; destruct (nested_each _ _ _ _) as [l0|]; [|discriminate I]; injection I as <-; apply sorted_set_nodup).
    pose proof (proj2 (ip_parents_exact t WF fuel parse_ip n l I)) as X.
    assert (X' : forall T, In T (drop_any l) <-> contains_address parse_ip t n T /\ T <> "ANY" /\ T <> "RESERVED").
    { intros T. rewrite (drop_any_in l Nd); [|intros R; apply X, Kr, X, R]. rewrite (X T). reflexivity. }
    rewrite wanted_some; [|intros N; assert (Y : In T0 (drop_any l)) by (apply X'; auto); rewrite N in Y; destruct Y]. split.
    + intros (T & A & B). apply X' in A. right. exists n, T. split; [reflexivity|]. tauto.
    + intros [A|(n' & T & En & A & B)]; [discriminate A|]. injection En as <-. exists T. split; [apply X', B|exact A].
Qed.
Lemma pick_spec fs name fl : pick_filters fs name = Ok fl -> (name = "" /\ fl = fs) \/
  (name <> "" /\ exists a f b, fs = a ++ f :: b /\ rf_name f = name /\ (forall g, In g b -> rf_name g <> name) /\ fl = [f]).
Proof.
  unfold pick_filters. destruct name as [|c name]; [intros E; injection E as <-; auto|]. cbn [is_empty]. set (n := String c name). intros E. right. split; [discriminate|]. clearbody n.
  revert fl E. induction fs as [|g fs IH]; intros fl E; [discriminate E|]. cbn [filter] in E. destruct (String.eqb_spec n (rf_name g)) as [X|X].
  - cbn [rev] in E. destruct (rev (filter (fun f => String.eqb n (rf_name f)) fs)) as [|f l] eqn:R.
    + cbn [app] in E. injection E as <-. exists [], g, fs. split; [reflexivity|]. split; [symmetry; exact X|]. split; [|reflexivity].
      intros h I Y. assert (Z : In h (filter (fun f => String.eqb n (rf_name f)) fs)) by (apply filter_In; split; [exact I|apply String.eqb_eq; symmetry; exact Y]).
      apply in_rev in Z. rewrite R in Z. destruct Z.
    + cbn [app] in E. destruct (IH [f] eq_refl) as (a & f' & b & -> & A & B & C). injection C as <-. injection E as <-. exists (g :: a), f, b. auto.
  - destruct (IH fl E) as (a & f' & b & -> & A & B & C). exists (g :: a), f', b. auto.
Qed.
Lemma pick_none fs name : name <> "" -> (pick_filters fs name = Raise (Exn "InvalidFilterError") <-> forall f, In f fs -> rf_name f <> name).
Proof.
  intros N. unfold pick_filters. destruct name as [|c name]; [congruence|]. cbn [is_empty]. set (n := String c name). split.
  - intros E f I Y. assert (Z : In f (rev (filter (fun f => String.eqb n (rf_name f)) fs))) by (apply -> in_rev; apply filter_In; split; [exact I|apply String.eqb_eq; symmetry; exact Y]).
    destruct (rev _); [destruct Z|discriminate E].
  - intros A. destruct (rev _) as [|f l] eqn:R; [reflexivity|]. exfalso. assert (Z : In f (filter (fun f => String.eqb n (rf_name f)) fs)) by (apply in_rev; rewrite R; left; reflexivity).
    apply filter_In in Z. destruct Z as [I E]. apply String.eqb_eq in E. exact (A f I (eq_sym E)).
Qed.
Lemma search_parts fuel parse_ip services networks fs src dst dport sport name l : reader_matches fuel parse_ip services networks fs src dst dport sport name = Ok l ->
  well_formed services -> well_formed networks -> bare_references services ->
  known_service services dport -> known_service services sport -> known_address parse_ip networks dst -> known_address parse_ip networks src ->
  exists fl, pick_filters fs name = Ok fl /\ forall i j, In (i, j) l <-> exists f t, nth_error fl i = Some f /\ nth_error (rf_terms f) j = Some t /\ term_asked parse_ip services networks src dst dport sport t.
Proof.
  intros E W1 W2 B K1 K2 K3 K4. unfold reader_matches in E.
  destruct (port_tokens fuel services dport) as [dps|] eqn:E1; [|discriminate E]. cbn [bind] in E.
  destruct (port_tokens fuel services sport) as [sps|] eqn:E2; [|discriminate E]. cbn [bind] in E.
  destruct (address_tokens fuel parse_ip networks dst) as [ds|] eqn:E3; [|discriminate E]. cbn [bind] in E.
  destruct (address_tokens fuel parse_ip networks src) as [ss|] eqn:E4; [|discriminate E]. cbn [bind] in E.
  destruct (pick_filters fs name) as [fl|]; [|discriminate E]. cbn [bind] in E. injection E as <-. exists fl. split; [reflexivity|].
  intros i j. rewrite found_in. unfold term_asked.
  split; intros (f & t & I & J & A1 & A2 & A3 & A4); exists f, t; (split; [exact I|]); (split; [exact J|]);
    (split; [apply (service_wanted services fuel dport dps (rt_dport t) W1 B E1 K1), A1|]); (split; [apply (service_wanted services fuel sport sps (rt_sport t) W1 B E2 K2), A2|]);
    (split; [apply (address_wanted networks parse_ip fuel dst ds (rt_destination t) W2 E3 K3), A3|apply (address_wanted networks parse_ip fuel src ss (rt_source t) W2 E4 K4), A4]).
Qed.

(** The text of Aruba policies, read back: addresses, services, rules. *)
From Coq Require Import Lia ZifyBool ZifyNat.
From Verif Require Import SpecAruba BaseFacts IPFacts PyStrFacts TextProofs WrapProofs CiscoProofs CiscoProofs2 CiscoTerm CiscoAcl CiscoDup CiscoGroupRead CiscoGroupTerm QuietTerm.
Local Open Scope string_scope.
Local Open Scope list_scope.
Local Open Scope Z_scope.

(** ** Words *)
Lemma lower_ws c : is_ws c = false -> is_ws (lower_char c) = false.
Proof. destruct c as [[] [] [] [] [] [] [] []]; vm_compute; congruence. Qed.
Lemma lower_no_ws s : no_ws s -> no_ws (lower s).
Proof.
  unfold no_ws, lower. induction s as [|c s IH]; [reflexivity|]. cbn [map_string forall_char]. intros H. apply andb_true_iff in H. destruct H as (A & B).
  apply negb_true_iff in A. rewrite (lower_ws c A), (IH B). reflexivity.
Qed.
Lemma lower_nonempty s : s <> "" -> lower s <> "".
Proof. destruct s; [congruence|discriminate]. Qed.
Lemma id_word name suffix : one_word name -> no_ws suffix -> one_word (lower name ++ suffix)%string.
Proof.
  intros W S. destruct (word_no_ws _ W) as (A & B). apply split_ws_word.
  - unfold no_ws. rewrite forall_char_app. rewrite (lower_no_ws _ A : forall_char _ _ = true), (S : forall_char _ _ = true). reflexivity.
  - pose proof (lower_nonempty _ B). destruct (lower name); [congruence|discriminate].
Qed.
Lemma suffix_inj a b c d : (a ++ c)%string = (b ++ d)%string -> String.length c = String.length d -> a = b /\ c = d.
Proof.
  revert b. induction a as [|x a IH]; intros b E L.
  - destruct b as [|y b]; [split; [reflexivity|exact E]|]. exfalso. cbn [append] in E. apply (f_equal String.length) in E. cbn [String.length] in E. rewrite GenProofs.length_app in E. lia.
  - destruct b as [|y b].
    + exfalso. cbn [append] in E. apply (f_equal String.length) in E. cbn [String.length] in E. rewrite GenProofs.length_app in E. lia.
    + cbn [append] in E. assert (x = y) as <- by congruence. assert (E' : (a ++ c)%string = (b ++ d)%string) by congruence. destruct (IH b E' L) as (-> & ->). auto.
Qed.

(** ** Addresses *)
Lemma mask_wildcard n x : nver n = V4 -> valid n -> 0 <= x < 2 ^ 32 -> (mask_says (addr_text V4 (naddr n)) (addr_text V4 (netmask n)) x <-> covers n (V4, x)).
Proof.
  intros E V Hx. rewrite <- wildcard_net by assumption. pose proof V as (Hl & Ha & _). rewrite E in Hl, Ha. cbn [width] in *.
  assert (S : 0 < size n <= 2 ^ 32).
  { unfold size. rewrite E. cbn [width]. split; [apply Z.pow_pos_nonneg; lia|apply Z.pow_le_mono_r; lia]. }
  assert (Vm : quad_value (addr_text V4 (netmask n)) = Some (netmask n)).
  { apply (addr_text_value V4). rewrite netmask_eq by (rewrite E; exact Hl). rewrite E. cbn [width]. lia. }
  assert (Vh : quad_value (addr_text V4 (hostmask n)) = Some (hostmask n)).
  { apply (addr_text_value V4). rewrite hostmask_eq by (rewrite E; exact Hl). cbn [width]. lia. }
  assert (B : forall i, 0 <= i < 32 -> Z.testbit (hostmask n) i = negb (Z.testbit (netmask n) i)).
  { intros i Hi. unfold hostmask. rewrite E. unfold all_ones. cbn [width]. rewrite Z.lxor_spec.
    replace (2 ^ 32 - 1) with (Z.ones 32) by (rewrite Z.ones_equiv; lia). rewrite Z.ones_spec_low by lia. destruct (Z.testbit (netmask n) i); reflexivity. }
  unfold mask_says, wildcard_says. rewrite Vm, Vh. split; intros (a & m & E1 & E2 & H).
  - exists a, (hostmask n). split; [exact E1|]. split; [reflexivity|]. intros i Hi T. apply H; [exact Hi|]. injection E2 as <-. rewrite B in T by exact Hi. apply negb_false_iff, T.
  - exists a, (netmask n). split; [exact E1|]. split; [reflexivity|]. intros i Hi T. apply H; [exact Hi|]. injection E2 as <-. rewrite B by exact Hi. rewrite T. reflexivity.
Qed.
Definition member_words (n : net) : list string := split_ws ("  " ++ ar_member n)%string.
Lemma lead2 s : split_ws ("  " ++ s)%string = split_ws s.
Proof. change ("  " ++ s)%string with (String " " (String " " s)). rewrite !split_ws_lead. reflexivity. Qed.
Lemma netmask_range n : nver n = V4 -> valid n -> 0 <= netmask n < 2 ^ width V4.
Proof.
  intros E (Hl & _). rewrite netmask_eq by exact Hl. rewrite E in *. unfold size. rewrite E. cbn [width] in *.
  assert (0 < 2 ^ (32 - nlen n)) by (apply Z.pow_pos_nonneg; lia). assert (2 ^ (32 - nlen n) <= 2 ^ 32) by (apply Z.pow_le_mono_r; lia). lia.
Qed.
Lemma prefix_word n : valid n -> split_ws (addr_text (nver n) (naddr n) ++ "/" ++ dec (nlen n))%string = [(addr_text (nver n) (naddr n) ++ "/" ++ dec (nlen n))%string].
Proof.
  intros (Hl & _). apply split_ws_word.
  - unfold no_ws. rewrite !forall_char_app. rewrite (addr_text_no_ws (nver n) (naddr n) : forall_char _ _ = true), (dec_no_ws (nlen n) ltac:(lia) : forall_char _ _ = true). reflexivity.
  - destruct (addr_text (nver n) (naddr n)); discriminate.
Qed.
Lemma member_says_net v n x : nver n = v -> valid n -> 0 <= x < 2 ^ width v ->
  (dest_member_says v (member_words n) x <-> covers n (v, x)) /\ idle (member_words n) = false /\ section_end (member_words n) = false.
Proof.
  intros E V Hx. pose proof V as (Hl & Ha & _). unfold member_words. rewrite lead2. unfold ar_member, num_addresses. rewrite broadcast_eq by exact V.
  assert (A : forall k, split_ws k = [k] -> split_ws (k ++ " " ++ addr_text (nver n) (naddr n))%string = [k; addr_text (nver n) (naddr n)]).
  { intros k K. rewrite split_ws_space, K, split_ws_addr by exact Ha. reflexivity. }
  destruct (naddr n + size n - 1 - naddr n + 1 =? 1) eqn:S.
  - change ("host " ++ addr_text (nver n) (naddr n))%string with ("host" ++ " " ++ addr_text (nver n) (naddr n))%string. rewrite A by reflexivity.
    split; [|split; reflexivity]. cbn [dest_member_says]. rewrite E in *. rewrite (addr_text_value v (naddr n) Ha). unfold covers. cbn [fst snd]. rewrite E. split.
    + intros [(_ & X)|(X & _)]; [|discriminate X]. injection X as ->. split; [reflexivity|lia].
    + intros (_ & X). left. split; [reflexivity|]. f_equal. lia.
  - destruct (nver n) eqn:Ev; subst v.
    + change ("network " ++ addr_text V4 (naddr n) ++ " " ++ addr_text V4 (netmask n))%string with ("network" ++ " " ++ (addr_text V4 (naddr n) ++ " " ++ addr_text V4 (netmask n)))%string.
      rewrite !split_ws_space, !split_ws_addr by (first [exact Ha|apply netmask_range; assumption]). cbn [app].
      change (split_ws "network") with ["network"]. cbn [app]. split; [|split; reflexivity]. cbn [dest_member_says]. rewrite <- (mask_wildcard n x Ev V Hx). tauto.
    + change ("network " ++ addr_text V6 (naddr n) ++ "/" ++ dec (nlen n))%string with ("network" ++ " " ++ (addr_text V6 (naddr n) ++ "/" ++ dec (nlen n)))%string.
      rewrite split_ws_space. pose proof (prefix_word n V) as PW. rewrite Ev in PW. rewrite PW. change (split_ws "network") with ["network"]. cbn [app].
      split; [|split; reflexivity]. cbn [dest_member_says]. pose proof (prefix_text_says n x V) as P. rewrite Ev in P. specialize (P Hx). unfold prefixlen_text in P. rewrite Ev in P. rewrite P. intuition discriminate.
Qed.

(** ** Services *)
Lemma set_pair_spec r : fst r = snd r \/ fst r <= snd r /\ fst r mod 8 < snd r mod 8 ->
  set_pair (fst r) (snd r) = if fst r =? snd r then [fst r] else [fst r; snd r].
Proof.
  intros H. unfold set_pair. destruct (fst r =? snd r) eqn:E; [reflexivity|]. destruct H as [H|(H & M)]; [lia|].
  assert (X : forall fuel, probe (S fuel) (fst r mod 8) (snd r mod 8) (snd r) = snd r mod 8).
  { intros fuel. cbn [probe]. destruct (snd r mod 8 =? fst r mod 8) eqn:Q; [lia|reflexivity]. }
  rewrite X. destruct (fst r mod 8 <? snd r mod 8) eqn:Q; [reflexivity|lia].
Qed.
Lemma proto_lower q : In q (map fst proto_map) -> lower q = q /\ one_word q.
Proof.
  intros I. assert (F : forallb (fun q => String.eqb (lower q) q && match split_ws q with [w] => String.eqb w q | _ => false end) (map fst proto_map) = true) by (vm_compute; reflexivity).
  rewrite forallb_forall in F. specialize (F q I). apply andb_true_iff in F. destruct F as (A & B). apply String.eqb_eq in A. split; [exact A|].
  unfold one_word. destruct (split_ws q) as [|w [|? ?]]; try discriminate B. apply String.eqb_eq in B. congruence.
Qed.
Definition port_service (q : string) (r : prange) : string := (lower q ++ " " ++ join " " (map dec (set_pair (fst r) (snd r))))%string.
Lemma port_service_says q r p : In q (map fst proto_map) -> 0 <= fst r -> fst r = snd r \/ fst r <= snd r /\ fst r mod 8 < snd r mod 8 ->
  (service_says (split_ws (port_service q r)) p <-> p_proto p = q /\ SpecPorts.in_range r (p_dport p)) /\ has_char newline (port_service q r) = false /\ is_empty (port_service q r) = false.
Proof.
  intros I Hr O. destruct (proto_lower q I) as (Lq & Wq). unfold port_service. rewrite Lq. rewrite set_pair_spec by exact O.
  assert (Nq : has_char newline q = false) by (apply word_line, Wq).
  assert (Ne : forall s, is_empty (q ++ " " ++ s)%string = false) by (intros s; destruct q; reflexivity).
  assert (D : forall z, 0 <= z -> split_ws (dec z) = [dec z] /\ has_char newline (dec z) = false).
  { intros z Hz. split; [apply split_ws_dec, Hz|]. apply no_ws_line, dec_no_ws, Hz. }
  destruct (fst r =? snd r) eqn:E; cbn [map].
  - change (join " " [dec (fst r)]) with (dec (fst r)). destruct (D _ Hr) as (D1 & D2). rewrite split_ws_space, D1, Wq. cbn [app].
    split; [|rewrite !has_char_app, Nq, D2; auto]. cbn [service_says]. rewrite dec_value by exact Hr. unfold SpecPorts.in_range. split.
    + intros (A & B). split; [exact A|]. injection B as B. lia.
    + intros (A & B). split; [exact A|]. f_equal. lia.
  - change (join " " [dec (fst r); dec (snd r)]) with (dec (fst r) ++ " " ++ dec (snd r))%string. destruct (D _ Hr) as (D1 & D2). assert (Hs : 0 <= snd r) by lia. destruct (D _ Hs) as (D3 & D4).
    rewrite split_ws_space, split_ws_space, D1, D3, Wq. cbn [app]. split; [|rewrite !has_char_app, Nq, D2, D4; auto]. cbn [service_says]. rewrite !dec_value by assumption. unfold SpecPorts.in_range. split.
    + intros (A & lo & hi & B & C & F). injection B as <-. injection C as <-. auto.
    + intros (A & B). split; [exact A|]. eauto.
Qed.
Lemma assoc_numbers q : assoc q ar_numbers = None <-> ~ In q ["icmp"; "gre"; "esp"].
Proof.
  unfold ar_numbers. cbn [assoc]. destruct (String.eqb q "icmp") eqn:E1; [apply String.eqb_eq in E1; subst; split; [discriminate|intros H; exfalso; apply H; cbn; auto]|].
  destruct (String.eqb q "gre") eqn:E2; [apply String.eqb_eq in E2; subst; split; [discriminate|intros H; exfalso; apply H; cbn; auto]|].
  destruct (String.eqb q "esp") eqn:E3; [apply String.eqb_eq in E3; subst; split; [discriminate|intros H; exfalso; apply H; cbn; auto]|].
  apply String.eqb_neq in E1, E2, E3. split; [intros _ [X|[X|[X|[]]]]; congruence|reflexivity].
Qed.
Lemma term_protocols_named l ps : term_protocols ["ipip"] l = Ok ps -> (forall q, In q l -> In q (map fst proto_map)) ->
  ps = map (fun q => if String.eqb q "ipip" then PNum 4 else PName q) l.
Proof.
  unfold term_protocols. destruct l as [|a l]; cbn [some]; intros H _; [apply ok_inj in H; auto|].
  destruct (forallb _ _) in H; [|discriminate H]. revert ps H. unfold protocol_name_to_number. generalize (a :: l). intros m. induction m as [|b m IH]; intros ps H; cbn [mapM] in H.
  - apply ok_inj in H. auto.
  - apply bind_ok in H. destruct H as (x & E & H). apply bind_ok in H. destruct H as (y & F & H). apply ok_inj in H. subst ps. cbn [map]. f_equal; [|apply IH, F].
    assert (S : str_in b ["ipip"] = String.eqb b "ipip") by (unfold str_in, memb; cbn [existsb]; apply orb_false_r). rewrite S in E. destruct (String.eqb b "ipip") eqn:Q.
    + apply String.eqb_eq in Q. subst b. change (assoc "ipip" proto_map) with (Some 4) in E. apply ok_inj in E. auto.
    + apply ok_inj in E. auto.
Qed.
Lemma services_ports ports : ports <> [] -> forall l acc sv, (forall q, In q l -> ~ In q ["icmp"; "gre"; "esp"]) ->
  ar_services acc (map (fun q => if String.eqb q "ipip" then PNum 4 else PName q) l) ports = Ok sv -> sv = acc ++ flat_map (fun q => map (port_service q) ports) l.
Proof.
  intros N. induction l as [|q l IH]; intros acc sv H E; cbn [map ar_services flat_map] in *; [apply ok_inj in E; rewrite app_nil_r; auto|].
  destruct (String.eqb q "ipip"); [destruct ports; [congruence|discriminate E]|].
  rewrite (proj2 (assoc_numbers q) (H q (or_introl eq_refl))) in E. apply IH in E; [|intros x I; apply H; right; exact I]. subst sv. rewrite <- app_assoc. reflexivity.
Qed.
Definition services (t : term) (ps : list pval) : res (list string) := if some ps then ar_services [] ps (t_destination_port t) else Ok ["any"].
Lemma services_say t ps sv p : ar_term_ok t -> term_protocols ["ipip"] (t_protocol t) = Ok ps -> services t ps = Ok sv ->
  ((exists s, In s sv /\ service_says (split_ws s) p) <-> any_or (t_protocol t) (eq (p_proto p)) /\ ports_match (t_destination_port t) (p_dport p)) /\
  (forall s, In s sv -> has_char newline s = false /\ is_empty s = false).
Proof.
  intros K Ep Es. destruct (at_protocol t K) as [(E1 & E2)|[(q & Iq & E1 & E2)|(Hq & E1 & N)]].
  - rewrite E1 in *. cbn in Ep. apply ok_inj in Ep. subst ps. cbn in Es. apply ok_inj in Es. subst sv. rewrite E2. split.
    + split; [intros _; split; left; reflexivity|]. intros _. exists "any". split; [left; reflexivity|]. left. reflexivity.
    + intros s [<-|[]]. split; reflexivity.
  - rewrite E1 in *. rewrite E2.
    assert (X : exists n, In (q, n) proto_map /\ (forall a, In (a, n) proto_map -> a = q) /\ ps = [PName q] /\ sv = [dec n] /\ 0 <= n /\ numeral_value (dec n) = Some n /\ split_ws (dec n) = [dec n] /\ dec n <> "any").
    { destruct Iq as [<-|[<-|[<-|[]]]]; vm_compute in Ep; apply ok_inj in Ep; subst ps; vm_compute in Es; apply ok_inj in Es; subst sv; [exists 1|exists 47|exists 50];
        match goal with |- In (?q, ?n) _ /\ _ => assert (I1 : In (q, n) proto_map) by (apply GenProofs.assoc_in; reflexivity) end;
        (split; [exact I1|]); (split; [intros a Ia; exact (GceRules.proto_inj _ _ _ Ia I1)|]); repeat split; try reflexivity; try lia; discriminate. }
    destruct X as (n & In1 & U & -> & -> & Hn & V & W & Ny). split.
    + split.
      * intros (s & [<-|[]] & S). rewrite W in S. cbn [service_says] in S. destruct S as [S|(m & S1 & S2)]; [congruence|]. rewrite V in S1. injection S1 as <-.
        split; [right; exists q; split; [left; reflexivity|apply U, S2]|left; reflexivity].
      * intros ([X|(a & [<-|[]] & X)] & _); [discriminate X|]. exists (dec n). split; [left; reflexivity|]. rewrite W. right. exists n. split; [exact V|]. rewrite X. exact In1.
    + intros s [<-|[]]. split; [apply no_ws_line, dec_no_ws, Hn|]. pose proof (dec_nonempty n) as Nn. destruct (dec n); [congruence|reflexivity].
  - pose proof (term_protocols_named _ _ Ep (fun q I => proj1 (Hq q I))) as ->.
    assert (sv = flat_map (fun q => map (port_service q) (t_destination_port t)) (t_protocol t)) as ->.
    { unfold services in Es. destruct (t_protocol t) as [|a l] eqn:El; [congruence|].
      cbn [map some] in Es. change (ar_services [] (map (fun q => if String.eqb q "ipip" then PNum 4 else PName q) (a :: l)) (t_destination_port t) = Ok sv) in Es.
      apply (services_ports _ N) in Es; [exact Es|]. intros q I. apply Hq, I. }
    split.
      * split.
        -- intros (s & Is & S). apply in_flat_map in Is. destruct Is as (q & Iq & Is). apply in_map_iff in Is. destruct Is as (r & <- & Ir).
           destruct (at_ports t K r Ir) as (H1 & H2). apply (port_service_says q r p (proj1 (Hq q Iq)) H1 H2) in S. destruct S as (S1 & S2).
           split; [right; exists q; auto|right; exists r; auto].
        -- intros ([X|(q & Iq & X)] & [Y|(r & Ir & Y)]); try contradiction. destruct (at_ports t K r Ir) as (H1 & H2). exists (port_service q r).
           split; [apply in_flat_map; exists q; split; [exact Iq|apply in_map, Ir]|]. apply (port_service_says q r p (proj1 (Hq q Iq)) H1 H2). auto.
      * intros s Is. apply in_flat_map in Is. destruct Is as (q & Iq & Is). apply in_map_iff in Is. destruct Is as (r & <- & Ir).
        destruct (at_ports t K r Ir) as (H1 & H2). apply (port_service_says q r (p) (proj1 (Hq q Iq)) H1 H2).
Qed.

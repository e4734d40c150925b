(** Commands for the advanced firewall of Windows: from a rule to its words and back. *)
From Coq Require Import Lia ZifyBool ZifyNat.
From Verif Require Import SpecWin SpecGce SpecPf BaseFacts IPFacts PyStrFacts TextProofs PolicyProofs GenProofs GenProofs2 CiscoProofs CiscoProofs2 CiscoDup CiscoGroupRead JuniperProofs JuniperTerm GceProofs GceDecide QuietTerm PfText PfRule.
Local Open Scope string_scope.
Local Open Scope list_scope.
Local Open Scope Z_scope.

(** ** Words *)
Lemma lower_ws c : is_ws c = true -> is_ws (lower_char c) = true.
Proof. destruct c as [[] [] [] [] [] [] [] []]; vm_compute; auto. Qed.
Lemma no_ws_lower s : no_ws (lower s) -> no_ws s.
Proof.
  unfold no_ws. induction s as [|c s IH]; [reflexivity|]. change (lower (String c s)) with (String (lower_char c) (lower s)). cbn [forall_char]. rewrite !andb_true_iff. intros (A & B). split; [|exact (IH B)].
  destruct (is_ws c) eqn:E; [|reflexivity]. rewrite (lower_ws c E) in A. discriminate A.
Qed.
Lemma comma_split l : (forall w, In w l -> has_char "," w = false) -> l <> [] -> split_char "," (join "," l) = l.
Proof.
  induction l as [|a [|b l] IH]; intros H N; [congruence| |].
  - cbn [join]. apply split_char_none, H. left. reflexivity.
  - change (join "," (a :: b :: l)) with (a ++ String "," (join "," (b :: l)))%string. rewrite split_char_join, (split_char_none "," a (H a (or_introl eq_refl))), IH; [reflexivity|intros w I; apply H; right; exact I|discriminate].
Qed.

Lemma chars_no P c s : forall_char P s = true -> P c = false -> has_char c s = false.
Proof.
  intros H N. induction s as [|d s IH]; [reflexivity|]. cbn [forall_char] in H. apply andb_true_iff in H. destruct H as (A & B). cbn [has_char]. rewrite (IH B), orb_false_r.
  destruct (Ascii.eqb d c) eqn:E; [|reflexivity]. apply Ascii.eqb_eq in E. congruence.
Qed.

(** ** Protocols *)
Definition proto_ok (q : string) (P : packet -> Prop) : Prop := no_ws (adv_number q) /\ q <> "" /\ read_protocol (adv_number q) = Some P.
Definition proto_says (q : string) (p : packet) : Prop := if String.eqb q "any" then True else p_proto p = if String.eqb q "icmpv4" then "icmp" else q.
Lemma known_proto q : In q ["any"; "tcp"; "udp"; "icmpv4"; "icmpv6"; "vrrp"; "ah"; "hopopt"] -> exists P, proto_ok q P /\ forall p, P p <-> proto_says q p.
Proof.
  assert (N : forall n w p, (forall k, In (k, n) proto_map <-> k = w) -> In (p_proto p, n) proto_map <-> p_proto p = w) by (intros n w p H; apply H).
  assert (U : forall n w, filter (fun kv => snd kv =? n) proto_map = [(w, n)] -> forall k, In (k, n) proto_map <-> k = w).
  { intros n w E k. split.
    - intros I. assert (J : In (k, n) (filter (fun kv => snd kv =? n) proto_map)) by (apply filter_In; split; [exact I|apply Z.eqb_refl]). rewrite E in J. destruct J as [J|[]]. congruence.
    - intros ->. assert (J : In (w, n) (filter (fun kv => snd kv =? n) proto_map)) by (rewrite E; left; reflexivity). apply filter_In in J. apply J. }
  intros I. cbn [In] in I. destruct I as [<-|[<-|[<-|[<-|[<-|[<-|[<-|[<-|[]]]]]]]]];
    (eexists; split; [split; [reflexivity|split; [discriminate|reflexivity]]|]); intros p; try reflexivity; apply N, U; reflexivity.
Qed.
Definition typed (v : ver) (n : Z) : string := ((if ver_eqb v V6 then "icmpv6" else "icmpv4") ++ ":" ++ dec n ++ ",any")%string.
Lemma typed_proto v n : 0 <= n -> exists P, proto_ok (typed v n) P /\ forall p, P p <-> p_proto p = (if ver_eqb v V6 then "icmpv6" else "icmp") /\ In (p_icmp_type p, n) (icmp_types_of v).
Proof.
  intros H. destruct (dec_pf n H) as (Dn & Dc).
  assert (C : has_char "," (dec n) = false) by (apply (chars_no pf_char); [exact Dc|reflexivity]).
  assert (W : no_ws (dec n)) by (apply pf_chars, Dc).
  assert (V : numeral_value (dec n) = Some n) by (apply dec_value, H).
  destruct v.
  - eexists. split; [split; [|split; [discriminate|]]|].
    + change (adv_number (typed V4 n)) with (typed V4 n). unfold typed, no_ws. cbn [ver_eqb]. rewrite !forall_char_app. unfold no_ws in W. rewrite W. reflexivity.
    + change (adv_number (typed V4 n)) with ("icmpv4:" ++ dec n ++ ",any")%string. unfold read_protocol.
      change (String.eqb ("icmpv4:" ++ dec n ++ ",any") "any") with false. change (str_in ("icmpv4:" ++ dec n ++ ",any")%string ["tcp"; "udp"]) with false.
      change (String.eqb ("icmpv4:" ++ dec n ++ ",any") "icmpv4") with false. change (String.eqb ("icmpv4:" ++ dec n ++ ",any") "icmpv6") with false.
      change (has_char ":" ("icmpv4:" ++ dec n ++ ",any")) with true. change (before_char ":" ("icmpv4:" ++ dec n ++ ",any")) with "icmpv4". change (after_char ":" ("icmpv4:" ++ dec n ++ ",any")) with (dec n ++ ",any")%string.
      cbv iota. change (",any") with (String "," "any"). rewrite (after_char_app "," (dec n) (String "," "any") C), (before_char_app "," (dec n) (String "," "any") C). change (before_char "," (String "," "any")) with "". rewrite str_app_nil, V. reflexivity.
    + intros p. reflexivity.
  - eexists. split; [split; [|split; [discriminate|]]|].
    + change (adv_number (typed V6 n)) with (typed V6 n). unfold typed, no_ws. cbn [ver_eqb]. rewrite !forall_char_app. unfold no_ws in W. rewrite W. reflexivity.
    + change (adv_number (typed V6 n)) with ("icmpv6:" ++ dec n ++ ",any")%string. unfold read_protocol.
      change (String.eqb ("icmpv6:" ++ dec n ++ ",any") "any") with false. change (str_in ("icmpv6:" ++ dec n ++ ",any")%string ["tcp"; "udp"]) with false.
      change (String.eqb ("icmpv6:" ++ dec n ++ ",any") "icmpv4") with false. change (String.eqb ("icmpv6:" ++ dec n ++ ",any") "icmpv6") with false.
      change (has_char ":" ("icmpv6:" ++ dec n ++ ",any")) with true. change (before_char ":" ("icmpv6:" ++ dec n ++ ",any")) with "icmpv6". change (after_char ":" ("icmpv6:" ++ dec n ++ ",any")) with (dec n ++ ",any")%string.
      cbv iota. change (",any") with (String "," "any"). rewrite (after_char_app "," (dec n) (String "," "any") C), (before_char_app "," (dec n) (String "," "any") C). change (before_char "," (String "," "any")) with "". rewrite str_app_nil, V. reflexivity.
    + intros p. reflexivity.
Qed.

(** ** A rule *)
Lemma rule_words dir name src dst q sport dport action :
  In (lower dir) ["in"; "out"] -> no_ws name -> valid src -> valid dst -> no_ws (adv_number q) -> q <> "" -> no_ws sport -> no_ws dport -> In action ["allow"; "block"] ->
  split_ws (adv_rule dir name src dst q sport dport action) =
    ["netsh"; "advfirewall"; "firewall"; "add"; "rule"] ++ [("name=" ++ slice_to dir 1 ++ "_" ++ name)%string; "enable=yes"; "interfacetype=any"; ("dir=" ++ dir)%string;
      ((if String.eqb (lower dir) "in" then "remote" else "local") ++ "ip=" ++ adv_address src)%string; ((if String.eqb (lower dir) "in" then "local" else "remote") ++ "ip=" ++ adv_address dst)%string]
    ++ (if is_empty sport then [] else [((if String.eqb (lower dir) "in" then "remote" else "local") ++ "port=" ++ sport)%string])
    ++ (if is_empty dport then [] else [((if String.eqb (lower dir) "in" then "local" else "remote") ++ "port=" ++ dport)%string])
    ++ [("protocol=" ++ adv_number q)%string; ("action=" ++ action)%string].
Proof.
  intros Hd Hn Vs Vd Hq Nq Hs Hp Ha.
  assert (Wd : no_ws dir) by (apply no_ws_lower; destruct Hd as [<-|[<-|[]]]; reflexivity).
  assert (Wa : forall n, valid n -> no_ws (adv_address n)).
  { intros n Vn. unfold adv_address. destruct (nlen n =? 0); [reflexivity|]. destruct (prefix_pf n Vn) as (_ & F). apply pf_chars, F. }
  assert (E : is_empty q = false) by (destruct q; [congruence|reflexivity]).
  assert (Ws : no_ws (slice_to dir 1)).
  { destruct dir as [|c [|c' dir]]; try exact Wd. unfold no_ws in *. change (slice_to (String c (String c' dir)) 1) with (String c ""). cbn [forall_char] in *. apply andb_true_iff in Wd. rewrite (proj1 Wd). reflexivity. }
  rewrite <- (split_good_join (_ ++ _)).
  - f_equal. unfold adv_rule. destruct (String.eqb (lower dir) "in"); rewrite E; cbv beta iota zeta;
      destruct (is_empty sport), (is_empty dport); cbn [app join]; rewrite ?str_app_assoc; reflexivity.
  - apply Forall_forall. intros w I. unfold no_ws in *. apply in_app_iff in I. destruct I as [I|I].
    { cbn [In] in I. repeat (destruct I as [<-|I]; [reflexivity|]). destruct I. }
    apply in_app_iff in I. destruct I as [I|I].
    { cbn [In] in I. repeat (destruct I as [<-|I]; [apply good_word_no_ws; [unfold no_ws; destruct (String.eqb (lower dir) "in"); rewrite ?forall_char_app, ?Ws, ?Hn, ?Wd, ?(Wa _ Vs), ?(Wa _ Vd); try reflexivity|destruct (String.eqb (lower dir) "in"); discriminate]|]). destruct I. }
    apply in_app_iff in I. destruct I as [I|I].
    { destruct (is_empty sport); [destruct I|]. destruct I as [<-|[]]. apply good_word_no_ws; [unfold no_ws; destruct (String.eqb (lower dir) "in"); rewrite !forall_char_app, Hs; reflexivity|destruct (String.eqb (lower dir) "in"); discriminate]. }
    apply in_app_iff in I. destruct I as [I|I].
    { destruct (is_empty dport); [destruct I|]. destruct I as [<-|[]]. apply good_word_no_ws; [unfold no_ws; destruct (String.eqb (lower dir) "in"); rewrite !forall_char_app, Hp; reflexivity|destruct (String.eqb (lower dir) "in"); discriminate]. }
    destruct I as [<-|[<-|[]]]; (apply good_word_no_ws; [unfold no_ws; rewrite forall_char_app|discriminate]); [rewrite Hq; reflexivity|destruct Ha as [<-|[<-|[]]]; reflexivity].
Qed.
Definition opt_port (s : string) : option string := if is_empty s then None else Some s.
Definition rule_entry (dir : string) (src dst : net) (P : packet -> Prop) (sport dport action : string) : adv_entry :=
  let i := String.eqb (lower dir) "in" in
  mkAdv (lower dir) action (if i then adv_address dst else adv_address src) (if i then adv_address src else adv_address dst)
    (if i then opt_port dport else opt_port sport) (if i then opt_port sport else opt_port dport) P.
Lemma rule_read dir name src dst q P sport dport action :
  In (lower dir) ["in"; "out"] -> no_ws name -> valid src -> valid dst -> proto_ok q P -> no_ws sport -> no_ws dport -> In action ["allow"; "block"] ->
  (is_empty sport && is_empty dport = true \/ In q ["tcp"; "udp"]) ->
  read_command (split_ws (adv_rule dir name src dst q sport dport action)) = Some (rule_entry dir src dst P sport dport action).
Proof.
  intros Hd Hn Vs Vd (Hq & Nq & Rq) Hs Hp Ha Hports. rewrite rule_words by assumption. unfold read_command.
  change (firstn 5 (["netsh"; "advfirewall"; "firewall"; "add"; "rule"] ++ ?l)) with ["netsh"; "advfirewall"; "firewall"; "add"; "rule"].
  cbn [app firstn skipn]. change (list_str_eqb ["netsh"; "advfirewall"; "firewall"; "add"; "rule"] ["netsh"; "advfirewall"; "firewall"; "add"; "rule"]) with true. cbv iota.
  assert (Hp' : ((is_empty sport && is_empty dport) || str_in (adv_number q) ["tcp"; "udp"]) = true).
  { destruct Hports as [->|[<-|[<-|[]]]]; [reflexivity| |]; apply orb_true_r. }
  assert (Ha' : str_in action ["allow"; "block"] = true) by (destruct Ha as [<-|[<-|[]]]; reflexivity).
  assert (Hd' : str_in (lower dir) ["in"; "out"] = true) by (destruct Hd as [<-|[<-|[]]]; reflexivity).
  unfold rule_entry, opt_port. 
  destruct (String.eqb (lower dir) "in"), (is_empty sport), (is_empty dport); cbv beta iota;
    cbn -[read_protocol adv_number adv_address str_in lower slice_to]; rewrite Rq; cbn -[read_protocol adv_number adv_address lower slice_to str_in]; cbn [andb orb] in Hp'; rewrite Ha', Hd'; rewrite ?Hp'; try reflexivity.
Qed.

(** ** What a rule says *)
Lemma address_text x n v : valid n -> on_net x -> fst x = v -> (nlen n = 0 -> nver n = v) -> address_says x (adv_address n) <-> covers n x.
Proof.
  intros V On E H. unfold address_says, adv_address. destruct (nlen n =? 0) eqn:Z.
  - split; [|intros _; left; reflexivity]. intros _. assert (Z' : nlen n = 0) by lia. specialize (H Z'). unfold covers, size. unfold on_net in On. rewrite H, Z', E in *.
    split; [reflexivity|]. destruct V as (Vl & Va & Vm). rewrite H, ?Z' in *. unfold size in *. rewrite ?H, ?Z', ?Z.sub_0_r in *.
    assert (naddr n = 0). { destruct Vm as (k & Vm). revert Vm Va. generalize (2 ^ width v), (naddr n). intros S a -> B. assert (k = 0) by nia. subst k. reflexivity. } lia.
  - rewrite <- (range_text n x V On). unfold range_has. split; [|auto]. intros [X|X]; [|exact X]. exfalso.
    unfold prefixlen_text in X. assert (C : has_char "/" "any" = true) by (rewrite <- X, !has_char_app; cbn; apply orb_true_r). discriminate C.
Qed.
Lemma port_nocomma r : 0 <= fst r -> 0 <= snd r -> forall_char pf_char (ModelJuniper.port_text r) = true /\ ModelJuniper.port_text r <> "".
Proof.
  destruct r as (lo, hi). cbn [fst snd]. intros A B. unfold ModelJuniper.port_text. destruct (dec_pf lo A) as (N1 & F1), (dec_pf hi B) as (N2 & F2). destruct (lo =? hi); [auto|].
  rewrite !forall_char_app, F1, F2. split; [reflexivity|]. destruct (dec lo); [congruence|discriminate].
Qed.
Lemma ports_text l n : (forall r, In r l -> 0 <= fst r /\ 0 <= snd r) -> no_ws (adv_ports l) /\ (is_empty (adv_ports l) = true <-> l = []) /\ (ports_say n (opt_port (adv_ports l)) <-> ports_match l n).
Proof.
  intros H. assert (F : forall w, In w (map ModelJuniper.port_text l) -> forall_char pf_char w = true /\ w <> "").
  { intros w I. apply in_map_iff in I. destruct I as (r & <- & I). apply port_nocomma; apply (H r I). }
  assert (W : no_ws (adv_ports l)).
  { unfold adv_ports, no_ws. assert (J : forall ws, (forall w, In w ws -> forall_char pf_char w = true /\ w <> "") -> forall_char (fun c => negb (is_ws c)) (join "," ws) = true).
    { induction ws as [|a [|b ws] IH]; intros K; [reflexivity|apply pf_chars, (K a); left; reflexivity|].
      change (join "," (a :: b :: ws)) with (a ++ "," ++ join "," (b :: ws))%string. rewrite !forall_char_app, IH by (intros w I; apply K; right; exact I).
      destruct (pf_chars a (proj1 (K a (or_introl eq_refl)))) as (_ & _ & X). unfold no_ws in X. rewrite X. reflexivity. }
    apply J, F. }
  assert (E : is_empty (adv_ports l) = true <-> l = []).
  { split; [|intros ->; reflexivity]. unfold adv_ports. destruct l as [|r l]; [reflexivity|]. intros X. exfalso. destruct (F _ (or_introl eq_refl)) as (_ & N). destruct l as [|r' l].
    - cbn [map join] in *. destruct (ModelJuniper.port_text r); [congruence|discriminate X].
    - change (join "," (map ModelJuniper.port_text (r :: r' :: l))) with (ModelJuniper.port_text r ++ "," ++ join "," (map ModelJuniper.port_text (r' :: l)))%string in X.
      destruct (ModelJuniper.port_text r); discriminate X. }
  split; [exact W|]. split; [exact E|]. unfold opt_port. destruct (is_empty (adv_ports l)) eqn:Em.
  - assert (l = []) by (apply E; reflexivity). subst l. split; [intros _; left; reflexivity|intros _ w X; discriminate X].
  - assert (Nl : l <> []) by (intros X; apply E in X; congruence). unfold ports_say, adv_ports.
    assert (Sp : split_char "," (join "," (map ModelJuniper.port_text l)) = map ModelJuniper.port_text l).
    { apply comma_split; [|destruct l; [congruence|discriminate]]. intros w I. apply (chars_no pf_char); [apply (F w I)|reflexivity]. }
    unfold ports_match. split.
    + intros X. right. destruct (X _ eq_refl) as (w & I & S). rewrite Sp in I. apply in_map_iff in I. destruct I as (r & <- & I). exists r. split; [exact I|]. apply port_text_says; [apply (H r I)|apply (H r I)|exact S].
    + intros [X|(r & I & S)] w Ew; [congruence|]. injection Ew as <-. rewrite Sp. exists (ModelJuniper.port_text r). split; [apply in_map, I|]. apply port_text_says; [apply (H r I)|apply (H r I)|exact S].
Qed.
Definition no_packet : packet := mkPacket (V4, 0) (V4, 0) "" 0 0 "" 0 (fun _ => True) (fun _ => True) (fun _ => True) (fun _ => True) (fun _ => True) "" "" 0 0 0 0 "" "" "" "" "" "" "" "" "".
Lemma protocols_read af v types protocols qs :
  (af = "inet" /\ v = V4 \/ af = "inet6" /\ v = V6) -> (forall q, In q protocols -> In q ["tcp"; "udp"; "icmp"; "icmpv6"; "vrrp"; "ah"; "hopopt"]) ->
  adv_protocols af types (if some protocols then protocols else ["any"]) = Ok qs ->
  (forall q, In q qs -> exists P, proto_ok q P) /\
  (types = [] -> qs = map (fun q => if String.eqb q "icmp" then "icmpv4" else q) (if some protocols then protocols else ["any"])) /\ (types <> [] -> protocols = ["icmp"] \/ protocols = ["icmpv6"]) /\
  forall p, (exists q, In q qs /\ forall P, proto_ok q P -> P p) <-> any_or protocols (eq (p_proto p)) /\ any_or types (eq (p_icmp_type p)).
Proof.
  intros Af Pk H. unfold adv_protocols in H. apply bind_ok in H. destruct H as (l & Hl & H). apply ok_inj in H. subst qs.
  assert (Fun : forall q P Q, proto_ok q P -> proto_ok q Q -> P = Q) by (intros q P Q (_ & _ & A) (_ & _ & B); congruence).
  destruct types as [|ty types].
  - cbn [some] in Hl. apply ok_inj in Hl. subst l.
    assert (K : forall q, In q (if some protocols then protocols else ["any"]) -> exists P, proto_ok (if String.eqb q "icmp" then "icmpv4" else q) P /\ forall p, P p <-> (q = "any" \/ p_proto p = q)).
    { intros q I. assert (J : In q ["any"; "tcp"; "udp"; "icmp"; "icmpv6"; "vrrp"; "ah"; "hopopt"]) by (destruct (some protocols); [right; apply Pk, I|destruct I as [<-|[]]; left; reflexivity]).
      clear I. cbn [In] in J. destruct J as [<-|[<-|[<-|[<-|[<-|[<-|[<-|[<-|[]]]]]]]]];
        match goal with |- context [if String.eqb ?a "icmp" then "icmpv4" else ?a] => destruct (known_proto (if String.eqb a "icmp" then "icmpv4" else a)) as (P & Pok & Sp); [cbn; intuition auto|] end;
        (exists P; split; [exact Pok|]); intros p; rewrite Sp; unfold proto_says; cbn; intuition (auto; discriminate). }
    split. { intros q I. apply in_map_iff in I. destruct I as (q' & <- & I). destruct (K q' I) as (P & Pok & _). exists P. exact Pok. }
    split; [reflexivity|]. split; [congruence|]. intros p. split.
    + intros (q & I & S). apply in_map_iff in I. destruct I as (q' & <- & I). destruct (K q' I) as (P & Pok & Sp). apply S in Pok. split; [|left; reflexivity]. apply Sp in Pok.
      unfold any_or. destruct protocols as [|q0 protocols]; [left; reflexivity|]. right. cbn [some] in I. destruct Pok as [->|E]; [|exists q'; auto]. destruct (Pk _ I) as [X|[X|[X|[X|[X|[X|[X|[]]]]]]]]; discriminate X.
    + intros ([A|(q & I & E)] & _).
      * subst protocols. cbn [some map] in *. exists "any". split; [left; reflexivity|]. intros P Pok. destruct (K "any" (or_introl eq_refl)) as (P' & Pok' & Sp). rewrite (Fun _ _ _ Pok Pok'). apply Sp. left. reflexivity.
      * assert (I' : In q (if some protocols then protocols else ["any"])) by (destruct protocols; [destruct I|exact I]). exists (if String.eqb q "icmp" then "icmpv4" else q). split; [apply (in_map (fun q => if String.eqb q "icmp" then "icmpv4" else q)), I'|]. intros P Pok. destruct (K q I') as (P' & Pok' & Sp). rewrite (Fun _ _ _ Pok Pok'). apply Sp. right. exact E.
  - cbn [some] in Hl. apply bind_ok in Hl. destruct Hl as (r & Hr & Hl).
    assert (Hv : forall p, exists l, r = Some l /\ l <> [] /\ (forall n, In n l -> 0 <= n) /\ ((exists n, In n l /\ In (p_icmp_type p, n) (icmp_types_of v)) <-> any_or (ty :: types) (eq (p_icmp_type p)))).
    { intros p. apply (icmp_types_spec (ty :: types) (if some protocols then protocols else ["any"]) (AfName af) v r p); [discriminate| |exact Hr]. destruct Af as [(-> & ->)|(-> & ->)]; auto. }
    destruct r as [ns|]; [|destruct (Hv no_packet) as (? & X & _); discriminate X].
    pose proof (proj1 (normalize_icmp_ok _ _ _ _) Hr) as (_ & _ & n & table & nums & Fam & Num & _ & _).
    assert (Pr : protocols = [if ver_eqb v V6 then "icmpv6" else "icmp"]).
    { destruct Af as [(-> & ->)|(-> & ->)]; destruct Num as [(E & _)|[(N & [E|E])|(N & E)]]; try discriminate E; destruct Fam as [(E1 & X & _)|(E1 & X & _)]; try (exfalso; lia);
        (destruct protocols as [|q0 protocols]; [discriminate E1|exact E1]). }
    apply ok_inj in Hl. assert (El : map (fun q => if String.eqb q "icmp" then "icmpv4" else q) l = map (typed v) ns).
    { subst l. rewrite map_map. apply map_ext. intros k. unfold typed. destruct Af as [(-> & ->)|(-> & ->)]; reflexivity. }
    rewrite El. assert (Ng : forall k, In k ns -> 0 <= k) by (destruct (Hv no_packet) as (l' & X & _ & Ng & _); injection X as <-; exact Ng).
    split. { intros q I. apply in_map_iff in I. destruct I as (k & <- & I). destruct (typed_proto v k (Ng k I)) as (P & Pok & _). exists P. exact Pok. }
    split; [discriminate|]. split; [intros _; rewrite Pr; destruct v; auto|]. intros p. destruct (Hv p) as (l' & X & _ & _ & S). injection X as <-. rewrite <- S. rewrite Pr. split.
    + intros (q & I & T). apply in_map_iff in I. destruct I as (k & <- & I). destruct (typed_proto v k (Ng k I)) as (P & Pok & Sp). apply T in Pok. apply Sp in Pok. destruct Pok as (A & B).
      split; [right; eexists; split; [left; reflexivity|exact A]|]. exists k. auto.
    + intros ([A|(q & [<-|[]] & A)] & k & I & B); [discriminate A|]. exists (typed v k). split; [apply in_map, I|]. intros P Pok. destruct (typed_proto v k (Ng k I)) as (P' & Pok' & Sp). rewrite (Fun _ _ _ Pok Pok'). apply Sp. auto.
Qed.

(** ** The rules of a term *)
Definition read_line (l : string) : option adv_entry := if is_command l then read_command (split_ws l) else None.
Lemma lines_read ls : (forall l, In l ls -> exists r, read_line l = Some r) -> exists rs, map read_line ls = map Some rs /\ forall r, In r rs <-> exists l, In l ls /\ read_line l = Some r.
Proof.
  induction ls as [|l ls IH]; intros H; [exists []; split; [reflexivity|intros r; split; [intros []|intros (l & [] & _)]]|].
  destruct (H l (or_introl eq_refl)) as (r & Hr). destruct (IH (fun x I => H x (or_intror I))) as (rs & E & S). exists (r :: rs). split; [cbn [map]; rewrite Hr, E; reflexivity|].
  intros x. split.
  - intros [<-|I]; [exists l; split; [left; reflexivity|exact Hr]|]. apply S in I. destruct I as (l' & I & R). exists l'. split; [right; exact I|exact R].
  - intros (l' & [<-|I] & R); [left; congruence|right; apply S; eauto].
Qed.
Lemma rule_command dir name src dst q sport dport action : is_command (adv_rule dir name src dst q sport dport action) = true.
Proof. unfold adv_rule. destruct (String.eqb (lower dir) "in"); reflexivity. Qed.
Lemma entry_applies dir d src dst P sport dport action p : In d ["in"; "out"] ->
  (adv_applies d p (rule_entry dir src dst P sport dport action) <->
   lower dir = d /\ P p /\ address_says (p_src p) (adv_address src) /\ address_says (p_dst p) (adv_address dst) /\ ports_say (p_sport p) (opt_port sport) /\ ports_say (p_dport p) (opt_port dport)).
Proof.
  intros Id. unfold adv_applies, rule_entry. cbn [av_dir av_proto av_local av_remote av_lport av_rport]. split.
  - intros (E & A & B). rewrite E in B. destruct Id as [<-|[<-|[]]]; cbn in B; tauto.
  - intros (E & A & B). split; [exact E|]. split; [exact A|]. rewrite E. destruct Id as [<-|[<-|[]]]; cbn; tauto.
Qed.
Lemma win_meant t : ((some (t_platform t) && negb (str_in "windows_advfirewall" (t_platform t))) || (some (t_platform_exclude t) && str_in "windows_advfirewall" (t_platform_exclude t))) = false <-> meant_for "windows_advfirewall" t.
Proof.
  unfold meant_for. rewrite orb_false_iff. split.
  - intros (A & B). split.
    + destruct (t_platform t) as [|a l] eqn:E; [left; reflexivity|right]. cbn [some andb] in A. apply negb_false_iff in A. apply str_in_spec, A.
    + intros I. destruct (t_platform_exclude t) as [|a l] eqn:E; [destruct I|]. cbn [some andb] in B. apply str_in_spec in I. congruence.
  - intros (A & B). split.
    + destruct A as [->|I]; [reflexivity|]. apply str_in_spec in I. rewrite I. apply andb_false_r.
    + destruct (str_in "windows_advfirewall" (t_platform_exclude t)) eqn:E; [apply str_in_spec in E; contradiction|apply andb_false_r].
Qed.
Definition term_block (v : ver) (dir : string) (t : term) (rs : list adv_entry) : Prop :=
  forall p d o, In d ["in"; "out"] -> adv_traffic p -> (lower dir = d -> fst (p_src p) = v) ->
    ((exists r, In r rs /\ adv_applies d p r /\ av_action r = o) <-> lower dir = d /\ term_matches t p /\ exists a, t_action t = [a] /\ win_verdict a = Some o).
Lemma all_covers v x : on_net x -> fst x = v -> covers (if ver_eqb v V6 then mkNet V6 0 0 "" "" "" else mkNet V4 0 0 "" "" "") x.
Proof. intros On <-. unfold on_net in On. unfold covers, size. destruct (fst x); cbn [ver_eqb nver naddr nlen] in *; rewrite Z.sub_0_r; split; try reflexivity; lia. Qed.
Lemma term_rules af v dir t ls :
  (af = "inet" /\ v = V4 \/ af = "inet6" /\ v = V6) -> adv_term_ok v t -> In (lower dir) ["in"; "out"] -> meant_for "windows_advfirewall" t -> quiet "windows_advfirewall" t ->
  (forall a, In a (t_action t) -> In a ["accept"; "deny"]) -> adv_term af dir t = Ok ls ->
  exists rs, map read_line ls = map Some rs /\ term_block v dir t rs.
Proof.
  intros Af [Kn Kp Ki Kports Kr Ko (Ks & Kd & Kz) _] Id M Q Ac H. unfold adv_term in H. rewrite (proj2 (win_meant t) M) in H.
  destruct ((String.eqb af "inet6" && str_in "icmp" (t_protocol t)) || (String.eqb af "inet" && str_in "icmpv6" (t_protocol t))) eqn:Other.
  { apply ok_inj in H. subst ls. exists []. split; [reflexivity|]. intros p d o _ Tp Hv. split; [intros (r & [] & _)|]. intros (E & Mt & _). exfalso. specialize (Hv E).
    apply (quiet_matches _ t p Q (SpecWin.at_platform p Tp)) in Mt. destruct Mt as (_ & _ & Mp & _). pose proof (SpecWin.at_icmp p Tp) as Ic. rewrite Hv in Ic.
    assert (X : In (if ver_eqb v V4 then "icmpv6" else "icmp") (t_protocol t)).
    { apply orb_true_iff in Other. destruct Af as [(-> & ->)|(-> & ->)]; destruct Other as [O|O]; apply andb_true_iff in O; destruct O as (O1 & O2); try discriminate O1; apply str_in_spec in O2; exact O2. }
    apply Ki in X. rewrite X in Mp. destruct Mp as [Mp|(q & [<-|[]] & Mp)]; [discriminate Mp|contradiction]. }
  destruct (t_action t) as [|act more] eqn:Ea; [discriminate H|]. assert (Ia : In act ["accept"; "deny"]) by (apply Ac; left; reflexivity).
  assert (En : String.eqb act "next" = false) by (destruct Ia as [<-|[<-|[]]]; reflexivity). rewrite En in H. destruct more as [|b more]; [|discriminate H]. cbn [some] in H.
  destruct (some (t_source_address_exclude t) || some (t_destination_address_exclude t)) eqn:Ex; [discriminate H|]. apply orb_false_iff in Ex. destruct Ex as (Ex1 & Ex2).
  assert (X1 : t_source_address_exclude t = []) by (destruct (t_source_address_exclude t); [reflexivity|discriminate Ex1]). assert (X2 : t_destination_address_exclude t = []) by (destruct (t_destination_address_exclude t); [reflexivity|discriminate Ex2]).
  apply bind_ok in H. destruct H as (qs & Hq & H). destruct (assoc act adv_actions) as [action|] eqn:Eact; [|discriminate H]. apply ok_inj in H. subst ls.
  assert (Wv : win_verdict act = Some action /\ In action ["allow"; "block"]) by (destruct Ia as [<-|[<-|[]]]; cbn in Eact; injection Eact as <-; cbn; auto). destruct Wv as (Wv & Iac).
  destruct (protocols_read af v _ _ _ Af Kp Hq) as (Pr & Pe & Pt & Ps).
  set (all := if String.eqb af "inet6" then mkNet V6 0 0 "" "" "" else mkNet V4 0 0 "" "" "") in *.
  assert (Eall : all = if ver_eqb v V6 then mkNet V6 0 0 "" "" "" else mkNet V4 0 0 "" "" "") by (unfold all; destruct Af as [(-> & ->)|(-> & ->)]; reflexivity).
  assert (Vall : valid all) by (rewrite Eall; destruct v; (split; [cbn; lia|]); (split; [cbn; lia|]); exists 0; reflexivity).
  assert (Gen : forall inc, valid_list inc -> (forall n, In n inc -> nlen n = 0 -> nver n = v) ->
    (forall n, In n (if some inc then inc else [all]) -> valid n) /\ forall x, on_net x -> fst x = v -> (exists n, In n (if some inc then inc else [all]) /\ address_says x (adv_address n)) <-> side_matches inc [] x).
  { intros inc Vi Zi. unfold valid_list in Vi. rewrite Forall_forall in Vi. destruct inc as [|n0 inc].
    - split; [intros n [<-|[]]; exact Vall|]. intros x On E. split; [intros _; split; [left; reflexivity|intros (m & [] & _)]|]. intros _. exists all. split; [left; reflexivity|].
      apply (address_text x all v Vall On E); [rewrite Eall; intros _; destruct v; reflexivity|]. rewrite Eall. apply all_covers; assumption.
    - split; [exact Vi|]. intros x On E. cbn [some]. split.
      + intros (n & I & S). split; [|intros (m & [] & _)]. right. exists n. split; [exact I|]. apply (address_text x n v (Vi n I) On E (Zi n I)), S.
      + intros ([X|(n & I & C)] & _); [discriminate X|]. exists n. split; [exact I|]. apply (address_text x n v (Vi n I) On E (Zi n I)), C. }
  destruct (Gen (t_source_address t) Ks (fun n I => Kz n (in_or_app _ _ _ (or_introl I)))) as (V1 & S1).
  destruct (Gen (t_destination_address t) Kd (fun n I => Kz n (in_or_app _ _ _ (or_intror I)))) as (V2 & S2).
  set (src := if some (t_source_address t) then t_source_address t else [all]) in *. set (dst := if some (t_destination_address t) then t_destination_address t else [all]) in *.
  assert (R1 : forall r, In r (t_source_port t) -> 0 <= fst r /\ 0 <= snd r) by (intros r I; apply Kr, in_or_app; left; exact I).
  assert (R2 : forall r, In r (t_destination_port t) -> 0 <= fst r /\ 0 <= snd r) by (intros r I; apply Kr, in_or_app; right; exact I).
  assert (Rd : forall s d q P, In s src -> In d dst -> In q qs -> proto_ok q P ->
    read_line (adv_rule dir (t_name t) s d q (adv_ports (t_source_port t)) (adv_ports (t_destination_port t)) action) = Some (rule_entry dir s d P (adv_ports (t_source_port t)) (adv_ports (t_destination_port t)) action)).
  { intros s d q P Is Idd Iq Pok. unfold read_line. rewrite rule_command. destruct (ports_text (t_source_port t) 0 R1) as (W1 & E1 & _), (ports_text (t_destination_port t) 0 R2) as (W2 & E2 & _).
    apply rule_read; try assumption; [apply V1, Is|apply V2, Idd|].
    destruct (is_empty (adv_ports (t_source_port t)) && is_empty (adv_ports (t_destination_port t))) eqn:Em; [left; reflexivity|right].
    assert (Nn : t_source_port t <> [] \/ t_destination_port t <> []).
    { apply andb_false_iff in Em. destruct Em as [Em|Em]; [left|right]; intros X; [apply E1 in X|apply E2 in X]; congruence. }
    apply Kports in Nn. destruct Nn as (N1 & N2). assert (Et : t_icmp_type t = []).
    { destruct (t_icmp_type t) as [|ty tys]; [reflexivity|]. exfalso. destruct (Pt ltac:(discriminate)) as [X|X]; rewrite X in N2; specialize (N2 _ (or_introl eq_refl)); destruct N2 as [N2|[N2|[]]]; discriminate N2. }
    rewrite (Pe Et) in Iq. apply in_map_iff in Iq. destruct Iq as (q' & <- & Iq). assert (Iq' : In q' (t_protocol t)) by (destruct (t_protocol t); [congruence|exact Iq]). apply N2 in Iq'. destruct Iq' as [<-|[<-|[]]]; cbn; auto. }
  match goal with |- exists rs, map read_line ?l = _ /\ _ => set (ls := l) end.
  assert (Il : forall l, In l ls <-> exists s d q, In s src /\ In d dst /\ In q qs /\ l = adv_rule dir (t_name t) s d q (adv_ports (t_source_port t)) (adv_ports (t_destination_port t)) action).
  { intros l. unfold ls. rewrite in_flat_map. split.
    - intros (s & Is & I). apply in_flat_map in I. destruct I as (d & Idd & I). apply in_map_iff in I. destruct I as (q & <- & I). exists s, d, q. auto.
    - intros (s & d & q & Is & Idd & Iq & ->). exists s. split; [exact Is|]. apply in_flat_map. exists d. split; [exact Idd|]. apply in_map_iff. exists q. auto. }
  destruct (lines_read ls) as (rs & Er & Sr).
  { intros l I. apply Il in I. destruct I as (s & d & q & Is & Idd & Iq & ->). destruct (Pr q Iq) as (P & Pok). eexists. exact (Rd s d q P Is Idd Iq Pok). }
  exists rs. split; [exact Er|]. intros p d o Hd Tp Hv.
  assert (On1 : on_net (p_src p)) by apply (SpecWin.at_src p Tp). assert (On2 : on_net (p_dst p)) by apply (SpecWin.at_dst p Tp).
  destruct (ports_text (t_source_port t) (p_sport p) R1) as (_ & _ & M1), (ports_text (t_destination_port t) (p_dport p) R2) as (_ & _ & M2).
  rewrite (quiet_matches _ t p Q (SpecWin.at_platform p Tp)), X1, X2, Ko. split.
  - intros (r & Ir & Ap & Ar). apply Sr in Ir. destruct Ir as (l & I & Rl). apply Il in I. destruct I as (s & dd & q & Is & Idd & Iq & ->). destruct (Pr q Iq) as (P & Pok).
    rewrite (Rd s dd q P Is Idd Iq Pok) in Rl. assert (r = rule_entry dir s dd P (adv_ports (t_source_port t)) (adv_ports (t_destination_port t)) action) by congruence. subst r.
    apply (entry_applies _ _ _ _ _ _ _ _ _ Hd) in Ap. destruct Ap as (A1 & A2 & A3 & A4 & A5 & A6). cbn in Ar. subst o. specialize (Hv A1). split; [exact A1|].
    pose proof (SpecWin.at_family p Tp) as Fm. split; [|exists act; auto].
    assert (Pp : any_or (t_protocol t) (eq (p_proto p)) /\ any_or (t_icmp_type t) (eq (p_icmp_type p))).
    { apply Ps. exists q. split; [exact Iq|]. intros P' Pok'. destruct Pok as (_ & _ & B1), Pok' as (_ & _ & B2). replace P' with P by congruence. exact A2. }
    destruct Pp as (B1 & B2). split; [apply (S1 _ On1 Hv); exists s; auto|]. split; [apply (S2 _ On2); [congruence|exists dd; auto]|]. split; [exact B1|]. split; [apply M1, A5|]. split; [apply M2, A6|]. split; [intros ? []|exact B2].
  - intros (A1 & (C1 & C2 & C3 & C4 & C5 & _ & C6) & a & Ea' & Wa). assert (a = act) by congruence. subst a. assert (o = action) by congruence. subst o. specialize (Hv A1). pose proof (SpecWin.at_family p Tp) as Fm.
    apply (S1 _ On1 Hv) in C1. destruct C1 as (s & Is & C1). apply S2 in C2; [|exact On2|congruence]. destruct C2 as (dd & Idd & C2).
    destruct (proj2 (Ps p) (conj C3 C6)) as (q & Iq & Cq). destruct (Pr q Iq) as (P & Pok). exists (rule_entry dir s dd P (adv_ports (t_source_port t)) (adv_ports (t_destination_port t)) action).
    split; [apply Sr; eexists; split; [apply Il; exists s, dd, q; auto|exact (Rd s dd q P Is Idd Iq Pok)]|]. split; [|reflexivity].
    apply (entry_applies _ _ _ _ _ _ _ _ _ Hd). split; [exact A1|]. split; [apply Cq, Pok|]. split; [exact C1|]. split; [exact C2|]. split; [apply M1, C4|apply M2, C5].
Qed.

(** Proofs about Cisco terms: the lines of a term match what the term matches. *)
From Coq Require Import Lia ZifyBool ZifyNat Permutation.
From Verif Require Import SpecCisco SpecSum IPFacts BaseFacts PyStrFacts SumProofs TextProofs ExcludeProofs PortProofs
  NamingProofs GenProofs GenProofs2 CiscoProofs.
Local Open Scope string_scope.
Local Open Scope list_scope.
Local Open Scope Z_scope.

(** ** Addresses *)
Lemma ver_eqb_iff a b : ver_eqb a b = true <-> a = b.
Proof. destruct a, b; simpl; split; congruence. Qed.
Lemma covered_version l v x : covered (address_of_version l (Some v)) (v, x) <-> covered l (v, x).
Proof.
  unfold covered, address_of_version. split.
  - intros (n & I & C). apply filter_In in I. exists n. tauto.
  - intros (n & I & C). exists n. split; [|exact C]. apply filter_In. split; [exact I|]. apply ver_eqb_iff. apply C.
Qed.
Lemma version_valid l v : valid_list l -> valid_list (address_of_version l (Some v)) /\
  Forall (fun n => nver n = v) (address_of_version l (Some v)).
Proof.
  intros V. unfold valid_list, address_of_version in *. rewrite !Forall_forall in *. split; intros n I; apply filter_In in I.
  - apply V, I.
  - apply ver_eqb_iff, I.
Qed.
Lemma cisco_addresses_spec c inc exc r : (c_dsmo c = true -> c_ver c = V4) ->
  valid_list inc -> valid_list exc -> (inc = [] -> exc = []) ->
  cisco_addresses c inc exc = Ok r ->
  match r with
  | None => forall x, ~ side_matches inc exc (c_ver c, x)
  | Some l => Forall (caddr_ok (c_ver c)) l /\
      forall x, 0 <= x < 2 ^ width (c_ver c) ->
        ((exists a, In a l /\ caddr_covers (c_ver c) a x) <-> side_matches inc exc (c_ver c, x))
  end.
Proof.
  intros Hd Vi Ve Hx. unfold cisco_addresses. destruct inc as [|i0 inc0].
  - cbn [some]. intros H. apply ok_inj in H. subst r. rewrite (Hx eq_refl). split; [constructor; [exact I|constructor]|].
    intros x _. split; [|intros _; exists AAny; split; [left; reflexivity|exact I]].
    intros _. split; [left; reflexivity|]. intros (n & [] & _).
  - set (inc := i0 :: inc0) in *. cbn [some]. set (v := c_ver c) in *.
    destruct (version_valid inc v Vi) as (Va & Fa). destruct (version_valid exc v Ve) as (Vb & Fb).
    set (a := address_of_version inc (Some v)) in *. set (e := address_of_version exc (Some v)) in *.
    assert (L : exists a', (if some e then address_list_exclude a e true else Ok a) = Ok a' /\ valid_list a' /\
                 forall x, covered a' x <-> covered a x /\ ~ covered e x).
    { destruct e as [|e0 e1] eqn:E; cbn [some].
      - exists a. split; [reflexivity|]. split; [exact Va|]. intros x. split; [|tauto]. intros C. split; [exact C|].
        intros (n & [] & _).
      - destruct (address_list_exclude_spec a (e0 :: e1) Va Vb) as (r' & R1 & R2 & _ & R3). exists r'. auto. }
    destruct L as (a' & -> & Va' & Ca). cbn [bind].
    assert (Sd : forall x, covered a' (v, x) <-> side_matches inc exc (v, x)).
    { intros x. rewrite Ca. unfold a, e. rewrite !covered_version. unfold side_matches. split.
      - intros (X & Y). split; [right; exact X|exact Y].
      - intros ([X|X] & Y); [discriminate X|]. auto. }
    assert (Fa' : Forall (fun n => nver n = v) a').
    { apply Forall_forall. intros n I. rewrite Forall_forall in Fa. 
      assert (C : covered a' (nver n, naddr n)).
      { exists n. split; [exact I|]. unfold valid_list in Va'. rewrite Forall_forall in Va'. destruct (Va' n I) as (H1 & _).
        split; [reflexivity|]. cbn [snd]. assert (0 < size n) by (apply Z.pow_pos_nonneg; lia). lia. }
      apply Ca in C. destruct C as ((m & Im & (Cm & _)) & _). cbn [fst] in Cm. rewrite <- Cm. apply Fa, Im. }
    destruct (some a') eqn:Sa; cbn [negb].
    2:{ intros H. apply ok_inj in H. subst r. intros x X. apply Sd in X. destruct X as (n & In' & _).
        destruct a'; [destruct In'|discriminate Sa]. }
    destruct (c_dsmo c) eqn:D.
    + destruct (summarize_spec v a' Va' Fa') as (s & -> & Ms & _ & _ & Ws & _). cbn [bind]. intros H. apply ok_inj in H. subst r.
      specialize (Hd eq_refl). split.
      * apply Forall_forall. intros y I. apply in_map_iff in I. destruct I as (d & <- & I). rewrite Forall_forall in Ws.
        destruct (Ws d I) as (W1 & W2 & _). cbn [caddr_ok]. auto.
      * intros x Hx'. rewrite <- Sd, <- (Ms x Hx'). unfold dsm_matched. split.
        { intros (y & I & C). apply in_map_iff in I. destruct I as (d & <- & I). exists d. auto. }
        { intros (d & I & C). exists (ADsm d). split; [apply in_map, I|exact C]. }
    + intros H. apply ok_inj in H. subst r. split.
      * apply Forall_forall. intros y I. apply in_map_iff in I. destruct I as (d & <- & I). cbn [caddr_ok].
        unfold valid_list in Va'. rewrite Forall_forall in Va', Fa'. auto.
      * intros x Hx'. rewrite <- Sd. unfold covered. split.
        { intros (y & I & C). apply in_map_iff in I. destruct I as (d & <- & I). exists d. auto. }
        { intros (d & I & C). exists (ANet d). split; [apply in_map, I|exact C]. }
Qed.

(** ** Ports *)
Lemma fix_consecutive_in l x : in_ports (fix_consecutive_ports l) x <-> in_ports l x.
Proof.
  unfold in_ports, fix_consecutive_ports. split.
  - intros (r & I & C). apply in_flat_map in I. destruct I as ((lo & hi) & I & J). exists (lo, hi). split; [exact I|].
    unfold SpecPorts.in_range in *. cbn [fst snd] in *. destruct (lo =? hi - 1) eqn:E; simpl in J.
    + destruct J as [<-|[<-|[]]]; cbn [fst snd] in C; lia.
    + destruct J as [<-|[]]. exact C.
  - intros ((lo & hi) & I & C). unfold SpecPorts.in_range in C. cbn [fst snd] in C.
    destruct (lo =? hi - 1) eqn:E.
    + destruct (Z.eq_dec x lo) as [->|N].
      * exists (lo, lo). split; [apply in_flat_map; exists (lo, hi); split; [exact I|]; rewrite E; left; reflexivity|].
        unfold SpecPorts.in_range; cbn [fst snd]; lia.
      * exists (hi, hi). split; [apply in_flat_map; exists (lo, hi); split; [exact I|]; rewrite E; right; left; reflexivity|].
        unfold SpecPorts.in_range; cbn [fst snd]; lia.
    + exists (lo, hi). split; [apply in_flat_map; exists (lo, hi); split; [exact I|]; rewrite E; left; reflexivity|]. exact C.
Qed.
Lemma cisco_ports_spec l : (forall r, In r l -> 0 <= fst r /\ 0 <= snd r) ->
  Forall oport_ok (cisco_ports l) /\ forall x, (exists o, In o (cisco_ports l) /\ oport_covers o x) <-> ports_match l x.
Proof.
  intros H. unfold cisco_ports. destruct l as [|r0 l0].
  - cbn [some]. split; [constructor; [exact I|constructor]|]. intros x. split; [intros _; left; reflexivity|].
    intros _. exists None. split; [left; reflexivity|exact I].
  - set (l := r0 :: l0) in *. change (some l) with true. cbv iota. split.
    + apply Forall_forall. intros o I. apply in_map_iff in I. destruct I as (r & <- & I). cbn [oport_ok].
      apply in_flat_map in I. destruct I as ((lo & hi) & I & J). specialize (H _ I). cbn [fst snd] in H.
      destruct (lo =? hi - 1); simpl in J; [destruct J as [<-|[<-|[]]]|destruct J as [<-|[]]]; cbn [fst snd]; lia.
    + intros x. unfold ports_match. rewrite <- fix_consecutive_in. unfold in_ports. split.
      * intros (o & I & C). right. apply in_map_iff in I. destruct I as (r & <- & I). eauto.
      * intros [X|(r & I & C)]; [discriminate X|]. exists (Some r). split; [apply in_map, I|exact C].
Qed.

(** ** Numbers of protocols and types *)
Definition unique_numbers (m : list (string * Z)) : Prop :=
  forall a b n, In (a, n) m -> In (b, n) m -> a = b.
Lemma unique_numbers_check m :
  forallb (fun x => forallb (fun y => if snd x =? snd y then String.eqb (fst x) (fst y) else true) m) m = true ->
  unique_numbers m.
Proof.
  intros H a b n A B. rewrite forallb_forall in H. specialize (H _ A). rewrite forallb_forall in H. specialize (H _ B).
  cbn [fst snd] in H. rewrite Z.eqb_refl in H. apply String.eqb_eq, H.
Qed.
Lemma proto_unique : unique_numbers proto_map.
Proof. apply unique_numbers_check. vm_compute. reflexivity. Qed.
Lemma icmp_unique v : unique_numbers (icmp_types_of v).
Proof. destruct v; apply unique_numbers_check; vm_compute; reflexivity. Qed.
Lemma icmp_nonneg v a n : In (a, n) (icmp_types_of v) -> 0 <= n.
Proof.
  assert (H : forallb (fun x => 0 <=? snd x) (icmp_types_of v) = true) by (destruct v; vm_compute; reflexivity).
  rewrite forallb_forall in H. intros I. specialize (H _ I). cbn [snd] in H. lia.
Qed.
Lemma num_says q n p : In (q, n) proto_map -> (In (p_proto p, n) proto_map <-> p_proto p = q).
Proof. intros I. split; [intros J; exact (proto_unique _ _ _ J I)|intros ->; exact I]. Qed.

(** The protocol column entry of a protocol given by name *)
Definition named_pval (q : string) : pval := if String.eqb q "ipip" then PNum 4 else PName q.
Definition column_entry (c : cisco_cfg) (p : pval) : option pval :=
  if c_proto_int c then
    match p with
    | PName s => if str_in s allowed_proto_strings then Some (PName s)
                 else match assoc s proto_map with Some n => Some (PNum n) | None => None end
    | PNum n => if n =? 4 then Some (PNum n) else None
    end
  else Some p.
Definition nx_entry (c : cisco_cfg) (p : option pval) : option pval :=
  if String.eqb (c_platform c) "cisconx" && (c_af c =? 6) && is_name "icmpv6" p then Some (PName "icmp") else p.
Lemma says_num v s n p q : str_in s ["ip"; "ipv4"; "ipv6"] = false -> numeral_value s = Some n -> In (q, n) proto_map ->
  (protocol_says v s p <-> p_proto p = q).
Proof. intros E N I. unfold protocol_says. rewrite E, N. apply num_says, I. Qed.
Lemma says_name v s p : str_in s ["ip"; "ipv4"; "ipv6"] = false -> numeral_value s = None -> s <> "hbh" ->
  (v = V6 -> s <> "icmp") -> (protocol_says v s p <-> p_proto p = s).
Proof.
  intros E N H6 HI. unfold protocol_says. rewrite E, N, (proj2 (String.eqb_neq _ _) H6). destruct v; [reflexivity|].
  rewrite (proj2 (String.eqb_neq _ _) (HI eq_refl)). reflexivity.
Qed.
Lemma column_says c q p : (c_af c = 4 \/ c_af c = 6) -> In q (map fst proto_map) -> q <> "all" -> (c_proto_int c = false -> q <> "ipv6") ->
  (c_af c = 6 -> q <> "icmp") -> (c_af c = 4 -> q <> "icmpv6") ->
  split_ws (proto_text (nx_entry c (column_entry c (named_pval q)))) = [proto_text (nx_entry c (column_entry c (named_pval q)))] /\
  (protocol_says (c_ver c) (proto_text (nx_entry c (column_entry c (named_pval q)))) p <-> p_proto p = q).
Proof.
  intros Haf I Na N6 Nic Nic6. unfold nx_entry, column_entry, named_pval, c_ver.
  destruct Haf as [Haf|Haf]; rewrite Haf; cbn [Z.eqb Pos.eqb].
  - rewrite andb_false_r. cbn [andb].
    specialize (Nic6 Haf). destruct (c_proto_int c) eqn:PI.
    + simpl in I. repeat (destruct I as [<-|I]; [
        first [congruence | split; [reflexivity|];
          first [ apply says_name; [reflexivity|reflexivity|discriminate|discriminate]
                | eapply says_num; [reflexivity|reflexivity|apply assoc_in; reflexivity]]]|]). destruct I.
    + specialize (N6 eq_refl). simpl in I. repeat (destruct I as [<-|I]; [
        first [congruence | split; [reflexivity|];
          first [ apply says_name; [reflexivity|reflexivity|discriminate|discriminate]
                | eapply says_num; [reflexivity|reflexivity|apply assoc_in; reflexivity]]]|]). destruct I.
  - rewrite andb_true_r. specialize (Nic Haf).
    destruct (c_proto_int c) eqn:PI; destruct (String.eqb (c_platform c) "cisconx") eqn:NX; cbn [andb];
      [| |specialize (N6 eq_refl)..].
    all: simpl in I; repeat (destruct I as [<-|I]; [
        first [congruence | split; [reflexivity|];
          first [ apply says_name; [reflexivity|reflexivity|discriminate|discriminate]
                | eapply says_num; [reflexivity|reflexivity|apply assoc_in; reflexivity]
                | reflexivity ]]|]).
    all: destruct I.
Qed.

(** ** The protocol column *)
Lemma term_protocols_named ps : (forall q, In q ps -> In q (map fst proto_map)) ->
  term_protocols ["ipip"] ps = Ok (map named_pval ps).
Proof.
  intros H. unfold term_protocols. destruct ps as [|q0 ps0]; [reflexivity|]. set (ps := q0 :: ps0) in *.
  change (some ps) with true. cbv iota.
  assert (F : forallb (fun p => match assoc p proto_map with Some _ => true
      | None => str_in p (map (fun kv => dec (snd kv)) proto_map) end) ps = true).
  { apply forallb_forall. intros q I. destruct (assoc q proto_map) eqn:E; [reflexivity|].
    apply assoc_none in E. exfalso. apply E, H, I. }
  rewrite F. unfold protocol_name_to_number. clear F. clearbody ps. clear q0 ps0 H.
  induction ps as [|q ps IH]; [reflexivity|]. cbn [mapM map].
  assert (E : (if str_in q ["ipip"] then match assoc q proto_map with Some n => Ok (PNum n) | None => Raise (Exn "KeyError") end
               else Ok (PName q)) = Ok (named_pval q)).
  { unfold named_pval. destruct (String.eqb_spec q "ipip") as [->|N]; [reflexivity|].
    unfold str_in, memb. cbn [existsb]. rewrite (proj2 (String.eqb_neq _ _) N). reflexivity. }
  rewrite E. cbn [bind]. rewrite IH. reflexivity.
Qed.
Lemma cisco_protocols_shape c ps :
  cisco_protocols c (map named_pval ps) =
  match ps with
  | [] => [Some (PName (if c_af c =? 6 then "ipv6" else if String.eqb (c_platform c) "ciscoxr" then "ipv4" else "ip"))]
  | _ => if list_str_eqb ps ["hopopt"] then [Some (PName "hbh")] else map (fun q => column_entry c (named_pval q)) ps
  end.
Proof.
  destruct ps as [|q ps]; [reflexivity|]. 
  destruct (list_str_eqb (q :: ps) ["hopopt"]) eqn:E.
  - apply list_str_eqb_iff in E. injection E as -> ->. reflexivity.
  - assert (X : (match map named_pval (q :: ps) with [PName s] => String.eqb s "hopopt" | _ => false end) = false).
    { cbn [map]. unfold named_pval at 1. destruct (String.eqb q "ipip"); [reflexivity|].
      destruct ps as [|q2 ps]; [|reflexivity]. cbn [map]. destruct (String.eqb_spec q "hopopt") as [->|N]; [discriminate E|reflexivity]. }
    unfold cisco_protocols. rewrite X. unfold column_entry. cbn [map].
    destruct (c_proto_int c); cbn [map]; rewrite map_map; reflexivity.
Qed.
Lemma flat_map_in5 (f : string -> string -> option prange -> option prange -> option pval -> list string) A B C D E x :
  In x (flat_map (fun a => flat_map (fun b => flat_map (fun c => flat_map (fun d => flat_map (fun e => f a b c d e) E) D) C) B) A)
  <-> exists a b c d e, In a A /\ In b B /\ In c C /\ In d D /\ In e E /\ In x (f a b c d e).
Proof.
  split.
  - intros H. apply in_flat_map in H. destruct H as (a & Ha & H). apply in_flat_map in H. destruct H as (b & Hb & H).
    apply in_flat_map in H. destruct H as (c & Hc & H). apply in_flat_map in H. destruct H as (d & Hd & H).
    apply in_flat_map in H. destruct H as (e & He & H). exists a, b, c, d, e. auto 10.
  - intros (a & b & c & d & e & Ha & Hb & Hc & Hd & He & H).
    apply in_flat_map. exists a. split; [exact Ha|]. apply in_flat_map. exists b. split; [exact Hb|].
    apply in_flat_map. exists c. split; [exact Hc|]. apply in_flat_map. exists d. split; [exact Hd|].
    apply in_flat_map. exists e. split; [exact He|exact H].
Qed.
Lemma cisco_lines_in c action sas das sps dps protocol types codes opts line :
  In line (cisco_lines c action sas das sps dps protocol types codes opts) <->
  exists sa da sp dp p ty co, In sa sas /\ In da das /\ In sp sps /\ In dp dps /\ In p protocol /\ In ty types /\ In co codes /\
    line = termlet action (proto_text (nx_entry c p)) sa (format_port sp) da (format_port dp) ty co (fix_options p opts).
Proof.
  unfold cisco_lines. rewrite flat_map_in5. split.
  - intros (a & b & sp & d & p & Ha & Hb & Hc & Hd & He & H). cbv zeta in H.
    apply in_flat_map in H. destruct H as (ty & Hty & H). apply in_map_iff in H. destruct H as (co & <- & Hco).
    exists a, b, sp, d, p, ty, co. auto 10.
  - intros (a & b & sp & d & p & ty & co & Ha & Hb & Hc & Hd & He & Hty & Hco & ->). exists a, b, sp, d, p.
    repeat (split; [assumption|]). cbv zeta. apply in_flat_map. exists ty. split; [exact Hty|]. apply in_map_iff.
    exists co. split; [reflexivity|exact Hco].
Qed.
Lemma mapM_in2 {A B} (f : A -> res B) l ys : mapM f l = Ok ys ->
  (forall y, In y ys -> exists x, In x l /\ f x = Ok y) /\ (forall x, In x l -> exists y, In y ys /\ f x = Ok y).
Proof.
  revert ys. induction l as [|x l IH]; cbn [mapM]; intros ys H.
  - apply ok_inj in H. subst. split; intros y [].
  - destruct (f x) as [y|e] eqn:E; [|discriminate H]. cbn [bind] in H. destruct (mapM f l) as [r|e]; [|discriminate H].
    cbn [bind] in H. apply ok_inj in H. subst ys. destruct (IH r eq_refl) as (I1 & I2). split.
    + intros z [<-|I]; [exists x; simpl; auto|]. destruct (I1 z I) as (w & W1 & W2). exists w. simpl. auto.
    + intros z [<-|I]; [exists y; simpl; auto|]. destruct (I2 z I) as (w & W1 & W2). exists w. simpl. auto.
Qed.

(** Remarks and the empty first line are not rules. *)
Lemma remark_no_rule v act s p : ~ line_matches v act (append " remark " s) p.
Proof.
  unfold line_matches. change (append " remark " s) with (append " remark" (append " " s)).
  rewrite split_ws_space. change (split_ws " remark") with ["remark"]. cbn [app].
  intros (_ & [H|[H|[]]] & _); discriminate H.
Qed.
Lemma remarks_no_rule c t v act p line : In line (String newline "" :: cisco_remarks c t) -> ~ line_matches v act line p.
Proof.
  intros [<-|I]; [intros X; exact X|]. unfold cisco_remarks in I. destruct (c_verbose c); [|destruct I].
  apply in_app_or in I. destruct I as [I|I].
  - destruct (c_remark c); [|destruct I]. destruct I as [<-|[]]. apply remark_no_rule.
  - apply in_flat_map in I. destruct I as (cm & _ & I). apply in_map_iff in I. destruct I as (l & <- & _). apply remark_no_rule.
Qed.

(** ** ICMP columns *)
Lemma types_column c t r p : (c_af c = 4 \/ c_af c = 6) -> t_icmp_type t <> [] ->
  normalize_icmp_types (t_icmp_type t) (t_protocol t) (AfNum (c_af c)) = Ok r ->
  let col := match r with Some l => map Some l | None => [None] end in
  (forall ty n, In ty col -> ty = Some n -> 0 <= n) /\ (forall ty, In ty col -> ty <> None) /\
  ((exists ty, In ty col /\ type_says (c_ver c) ty p) <-> any_or (t_icmp_type t) (eq (p_icmp_type p))).
Proof.
  intros Haf Nt H. destruct r as [l|]; [|apply normalize_icmp_none in H; congruence]. cbv zeta.
  apply normalize_icmp_ok in H. destruct H as (_ & _ & n & table & nums & Fam & Num & F2 & Pm).
  assert (T : table = icmp_types_of (c_ver c)).
  { destruct Num as [(E & _)|[(_ & [E|E])|(_ & E)]]; try discriminate E. injection E as E.
    unfold c_ver. rewrite E. destruct Fam as [(_ & -> & ->)|(_ & -> & ->)]; reflexivity. }
  subst table.
  assert (I1 : forall k, In k nums -> exists x, In x (t_icmp_type t) /\ In (x, k) (icmp_types_of (c_ver c))).
  { intros k. clear -F2. induction F2 as [|x y l1 l2 Hx F IH]; [intros []|]. intros [<-|I].
    - exists x. split; [left; reflexivity|exact Hx].
    - destruct (IH I) as (z & Z1 & Z2). exists z. split; [right; exact Z1|exact Z2]. }
  assert (I2 : forall x, In x (t_icmp_type t) -> exists k, In k nums /\ In (x, k) (icmp_types_of (c_ver c))).
  { intros x. clear -F2. induction F2 as [|y z l1 l2 Hx F IH]; [intros []|]. intros [<-|I].
    - exists z. split; [left; reflexivity|exact Hx].
    - destruct (IH I) as (k & Z1 & Z2). exists k. split; [right; exact Z1|exact Z2]. }
  split; [|split].
  - intros ty k I ->. apply in_map_iff in I. destruct I as (k' & E & I). injection E as ->.
    apply (Permutation_in _ Pm) in I. destruct (I1 _ I) as (x & _ & X). eapply icmp_nonneg, X.
  - intros ty I ->. apply in_map_iff in I. destruct I as (k' & E & _). discriminate E.
  - unfold any_or. split.
    + intros (ty & I & S). right. apply in_map_iff in I. destruct I as (k & <- & I). cbn [type_says] in S.
      apply (Permutation_in _ Pm) in I. destruct (I1 _ I) as (x & X1 & X2). exists x. split; [exact X1|].
      exact (icmp_unique _ _ _ _ S X2).
    + intros [E|(x & I & E)]; [congruence|]. destruct (I2 x I) as (k & K1 & K2). exists (Some k). split.
      * apply in_map. apply (Permutation_in _ (Permutation_sym Pm)), K1.
      * cbn [type_says]. rewrite E. exact K2.
Qed.
Lemma codes_column l p : (forall n, In n l -> 0 <= n) ->
  let col := if some l then map Some l else [None] in
  (forall co n, In co col -> co = Some n -> 0 <= n) /\
  ((exists co, In co col /\ code_says co p) <-> any_or l (eq (p_icmp_code p))).
Proof.
  intros H. cbv zeta. destruct l as [|n0 l0]; cbn [some].
  - split; [intros co n [<-|[]]; discriminate|]. unfold any_or. split; [auto|]. intros _. exists None. split; [left; reflexivity|exact I].
  - set (l := n0 :: l0) in *. split.
    + intros co n I ->. apply in_map_iff in I. destruct I as (m & E & I). injection E as ->. auto.
    + unfold any_or. split.
      * intros (co & I & S). right. apply in_map_iff in I. destruct I as (m & <- & I). exists m. auto.
      * intros [E|(m & I & E)]; [discriminate E|]. exists (Some m). split; [apply in_map, I|exact E].
Qed.
Lemma fix_consecutive_no_pair l r : In r (fix_consecutive_ports l) -> snd r <> fst r + 1.
Proof.
  unfold fix_consecutive_ports. intros I. apply in_flat_map in I. destruct I as ((lo & hi) & _ & J).
  destruct (lo =? hi - 1) eqn:E; simpl in J.
  - destruct J as [<-|[<-|[]]]; cbn; lia.
  - destruct J as [<-|[]]. cbn. lia.
Qed.

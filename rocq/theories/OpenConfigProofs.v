(** Proofs about the OpenConfig generator: the entries of a term match what the term matches. *)
From Coq Require Import Lia ZifyBool ZifyNat Permutation.
From Verif Require Import SpecOpenConfig BaseFacts PyStrFacts IPFacts CollapseProofs ExcludeProofs PolicyProofs GenProofs GenProofs2 TextProofs IptText CiscoProofs CiscoProofs2 CiscoAcl GceProofs GceRules GceDecide QuietTerm IptRule.
Local Open Scope string_scope.
Local Open Scope list_scope.
Local Open Scope Z_scope.

(** ** Loops that share a state *)
Lemma sweep_spec {A S R} (f : A -> S -> res (S * list R)) (Inv : S -> Prop) (Q : A -> R -> Prop) : forall l,
  (forall x s s' rs, In x l -> Inv s -> f x s = Ok (s', rs) -> Inv s' /\ forall r, In r rs <-> Q x r) ->
  forall s s' rs, Inv s -> sweep f l s = Ok (s', rs) -> Inv s' /\ forall r, In r rs <-> exists x, In x l /\ Q x r.
Proof.
  induction l as [|x l IH]; intros H s s' rs I E; cbn [sweep] in E.
  - apply ok_inj, pair_equal_spec in E. destruct E as [<- <-]. split; [exact I|]. intros r. split; [intros []|intros (x & [] & _)].
  - destruct (f x s) as [[s1 r1]|] eqn:E1; [|discriminate E]. cbn [bind] in E.
    destruct (sweep f l s1) as [[s2 r2]|] eqn:E2; [|discriminate E]. cbn [bind] in E.
    apply ok_inj, pair_equal_spec in E. destruct E as [<- <-].
    destruct (H x s s1 r1 (or_introl eq_refl) I E1) as (I1 & Q1).
    destruct (IH (fun y s s' rs Y => H y s s' rs (or_intror Y)) s1 s2 r2 I1 E2) as (I2 & Q2).
    split; [exact I2|]. intros r. rewrite in_app_iff, Q1, Q2. split.
    + intros [X|(y & Y & X)]; [exists x|exists y]; cbn [In]; auto.
    + intros (y & [<-|Y] & X); [auto|right; exists y; auto].
Qed.

(** ** The entries of a term *)
Definition pnumber (q : option pval) (n : option Z) : Prop :=
  match q with None => n = None | Some (PNum k) => n = Some k | Some (PName s) => exists k, assoc s proto_map = Some k /\ n = Some k end.
Definition as_made (v : ver) (t : term) (s d : option net) (sp dp : prange) (q : option pval) (r : oc_ace * option string) : Prop :=
  oa_src (fst r) = option_map prefixlen_text s /\ oa_dst (fst r) = option_map prefixlen_text d /\
  oa_sport (fst r) = oc_port sp /\ oa_dport (fst r) = oc_port dp /\ pnumber q (oa_proto (fst r)) /\ snd r = oc_detail v q (t_option t).
Lemma or_any_in {A} (l : list A) (x : option A) : In x (or_any l) <-> (x = None /\ l = []) \/ (exists a, x = Some a /\ In a l).
Proof.
  unfold or_any. destruct l as [|a l].
  - cbn [In]. split; [intros [<-|[]]; left; auto|intros [[-> _]|(a & _ & [])]; left; reflexivity].
  - rewrite in_map_iff. split; [intros (b & <- & I); right; exists b; auto|intros [[_ E]|(b & -> & I)]; [discriminate E|exists b; auto]].
Qed.
Definition nonzero (l : list prange) : Prop := forall r, In r l -> oc_port r <> None.
Lemma or_zero_in l r : In r (or_zero l) <-> (r = (0, 0) /\ l = []) \/ In r l.
Proof. unfold or_zero. destruct l as [|a l]; [cbn [In]; intuition|]. intuition. discriminate. Qed.
Section Rules.
  Context (v : ver) (t : term) (ss ds : list net) (ps : list pval).
  Hypothesis nzs : nonzero (t_source_port t).
  Hypothesis nzd : nonzero (t_destination_port t).
  Let inv0 (a : oc_ace) : Prop := (ss = [] -> oa_src a = None) /\ (ds = [] -> oa_dst a = None) /\ (t_source_port t = [] -> oa_sport a = None) /\
    (t_destination_port t = [] -> oa_dport a = None) /\ (ps = [] -> oa_proto a = None).
  Lemma oc_rules_made_ rs : oc_rules v t ss ds ps = Ok rs ->
    forall r, In r rs <-> exists s, In s (or_any ss) /\ exists d, In d (or_any ds) /\ exists sp, In sp (or_zero (t_source_port t)) /\
      exists dp, In dp (or_zero (t_destination_port t)) /\ exists q, In q (or_any ps) /\ as_made v t s d sp dp q r.
  Proof.
    intros E. unfold oc_rules in E. match type of E with bind ?m _ = _ => destruct m as [[a rs0]|] eqn:W; [|discriminate E] end.
    cbn [bind] in E. apply ok_inj in E. subst rs0.
    refine (proj2 (sweep_spec _ inv0 _ _ _ _ _ _ _ W)); [|unfold inv0; cbn; auto 10]. clear W a rs.
    intros s a a' rs Is I0 W. cbv zeta in W.
    refine ((fun P => conj (proj1 (proj1 P)) (proj2 P)) (sweep_spec _ (fun a => inv0 a /\ oa_src a = option_map prefixlen_text s) _ _ _ _ _ _ _ W)).
    2: { unfold inv0 in *. apply or_any_in in Is. destruct Is as [(-> & El)|(n & -> & In_)].
         - cbn [set_src option_map]. split; [exact I0|apply I0, El].
         - cbn [set_src option_map oa_src oa_dst oa_sport oa_dport oa_proto]. split; [|reflexivity]. split; [intros X; rewrite X in In_; destruct In_|apply I0]. }
    clear W a a' rs I0 Is. intros d a a' rs Id (I0 & Es) W. cbv zeta in W.
    refine ((fun P => conj (conj (proj1 (proj1 P)) (proj1 (proj2 (proj1 P)))) (proj2 P)) (sweep_spec _ (fun a => inv0 a /\ oa_src a = option_map prefixlen_text s /\ oa_dst a = option_map prefixlen_text d) _ _ _ _ _ _ _ W)).
    2: { unfold inv0 in *. apply or_any_in in Id. destruct Id as [(-> & El)|(n & -> & In_)].
         - cbn [set_dst option_map]. split; [exact I0|]. split; [exact Es|apply I0, El].
         - cbn [set_dst option_map oa_src oa_dst oa_sport oa_dport oa_proto]. split; [|auto]. split; [apply I0|]. split; [intros X; rewrite X in In_; destruct In_|apply I0]. }
    clear W a a' rs I0 Id Es. intros sp a a' rs Id (I0 & Es & Ed) W. cbv zeta in W.
    refine ((fun P => conj (conj (proj1 (proj1 P)) (conj (proj1 (proj2 (proj1 P))) (proj1 (proj2 (proj2 (proj1 P)))))) (proj2 P))
      (sweep_spec _ (fun a => inv0 a /\ oa_src a = option_map prefixlen_text s /\ oa_dst a = option_map prefixlen_text d /\ oa_sport a = oc_port sp) _ _ _ _ _ _ _ W)).
    2: { unfold inv0 in *. apply or_zero_in in Id. unfold set_sport. destruct Id as [(-> & El)|Id].
         - cbn [oc_port fst snd Z.eqb andb]. split; [exact I0|]. split; [exact Es|]. split; [exact Ed|apply I0, El].
         - pose proof (nzs _ Id) as Z. destruct (oc_port sp) as [j|] eqn:Ej; [|congruence]. cbn [oa_src oa_dst oa_sport oa_dport oa_proto]. split; [|auto].
           split; [apply I0|]. split; [apply I0|]. split; [intros X; rewrite X in Id; destruct Id|apply I0]. }
    clear W a a' rs I0 Id Es Ed. intros dp a a' rs Id (I0 & Es & Ed & Esp) W. cbv zeta in W.
    refine ((fun P => conj (conj (proj1 (proj1 P)) (conj (proj1 (proj2 (proj1 P))) (conj (proj1 (proj2 (proj2 (proj1 P)))) (proj1 (proj2 (proj2 (proj2 (proj1 P)))))))) (proj2 P))
      (sweep_spec _ (fun a => inv0 a /\ oa_src a = option_map prefixlen_text s /\ oa_dst a = option_map prefixlen_text d /\ oa_sport a = oc_port sp /\ oa_dport a = oc_port dp) _ _ _ _ _ _ _ W)).
    2: { unfold inv0 in *. apply or_zero_in in Id. unfold set_dport. destruct Id as [(-> & El)|Id].
         - cbn [oc_port fst snd Z.eqb andb]. split; [exact I0|]. split; [exact Es|]. split; [exact Ed|]. split; [exact Esp|apply I0, El].
         - pose proof (nzd _ Id) as Z. destruct (oc_port dp) as [j|] eqn:Ej; [|congruence]. cbn [oa_src oa_dst oa_sport oa_dport oa_proto]. split; [|auto].
           split; [apply I0|]. split; [apply I0|]. split; [apply I0|]. split; [intros X; rewrite X in Id; destruct Id|apply I0]. }
    clear W a a' rs I0 Id Es Ed Esp. intros q a a' rs Iq (I0 & Es & Ed & Esp & Edp) W.
    destruct (set_proto q a) as [b|] eqn:Eb; [|discriminate W]. cbn [bind] in W. apply ok_inj, pair_equal_spec in W. destruct W as [<- <-].
    assert (B : oa_src b = oa_src a /\ oa_dst b = oa_dst a /\ oa_sport b = oa_sport a /\ oa_dport b = oa_dport a /\ pnumber q (oa_proto b) /\ (ps = [] -> oa_proto b = None)).
    { apply or_any_in in Iq. destruct Iq as [(-> & El)|(x & -> & Ix)].
      - cbn [set_proto] in Eb. apply ok_inj in Eb. subst b. do 4 (split; [reflexivity|]). split; [apply I0, El|intros _; apply I0, El].
      - assert (N : ps <> []) by (intros X; rewrite X in Ix; destruct Ix). destruct x as [w|k]; cbn [set_proto] in Eb.
        + destruct (assoc w proto_map) as [k|] eqn:Ek; [|discriminate Eb]. apply ok_inj in Eb. subst b. cbn [oa_src oa_dst oa_sport oa_dport oa_proto].
          do 4 (split; [reflexivity|]). split; [exists k; auto|intros; contradiction].
        + apply ok_inj in Eb. subst b. cbn [oa_src oa_dst oa_sport oa_dport oa_proto]. do 4 (split; [reflexivity|]). split; [reflexivity|intros; contradiction]. }
    destruct B as (B1 & B2 & B3 & B4 & B5 & B6). split.
    - unfold inv0 in *. rewrite B1, B2, B3, B4. split; [|auto]. split; [apply I0|]. split; [apply I0|]. split; [apply I0|]. split; [apply I0|exact B6].
    - intros r. cbn [In]. unfold as_made. split.
      + intros [<-|[]]. cbn [fst snd]. rewrite B1, B2, B3, B4. auto 10.
      + intros (R1 & R2 & R3 & R4 & R5 & R6). left. destruct r as [c dt]. cbn [fst snd] in *. f_equal; [|symmetry; exact R6].
        destruct b as [b1 b2 b3 b4 b5], c as [c1 c2 c3 c4 c5]. cbn [oa_src oa_dst oa_sport oa_dport oa_proto] in *.
        assert (P : b5 = c5).
        { destruct q as [[w|k]|]; cbn [pnumber] in B5, R5; [|congruence|congruence].
          destruct B5 as (k1 & K1 & ->), R5 as (k2 & K2 & ->). congruence. }
        congruence.
  Qed.
End Rules.
Definition oc_rules_made v t ss ds ps := oc_rules_made_ v t ss ds ps.

Lemma entry_paths v desc act r seq : let e := oc_entry v desc act r seq in
  path [family_key v; "config"; "source-address"] e = option_map JStr (oa_src (fst r)) /\
  path [family_key v; "config"; "destination-address"] e = option_map JStr (oa_dst (fst r)) /\
  path [family_key v; "config"; "protocol"] e = option_map JNum (oa_proto (fst r)) /\
  path ["transport"; "config"; "source-port"] e = oa_sport (fst r) /\
  path ["transport"; "config"; "destination-port"] e = oa_dport (fst r) /\
  path ["transport"; "config"; "detail-mode"] e = option_map (fun _ => JStr "BUILTIN") (snd r) /\
  path ["transport"; "config"; "builtin-detail"] e = option_map JStr (snd r) /\
  path ["actions"; "config"; "forwarding-action"] e = Some (JStr act) /\
  path ["config"; "description"] e = Some (JStr desc) /\
  path ["sequence-id"] e = Some (JNum seq) /\ path ["config"; "sequence-id"] e = Some (JNum seq).
Proof.
  destruct r as [[s d sp dp q] dt]. cbv zeta. cbn [fst snd oa_src oa_dst oa_sport oa_dport oa_proto].
  destruct v, s, d, sp, dp, q, dt; repeat split; reflexivity.
Qed.

(** ** What an entry checks *)
Lemma port_text_split a b lo hi : 0 <= lo -> 0 <= hi -> append a (append ".." b) = append (dec lo) (append ".." (dec hi)) ->
  (exists n, numeral_value a = Some n) -> a = dec lo /\ b = dec hi.
Proof.
  intros L H E (n & N).
  assert (A : has_char "." a = false) by exact (numeral_nodot a n "." N eq_refl).
  assert (D : has_char "." (dec lo) = false) by exact (dec_no "." lo L eq_refl).
  pose proof (f_equal (before_char ".") E) as E1. pose proof (f_equal (after_char ".") E) as E2.
  rewrite (before_char_app "." a _ A), (before_char_app "." (dec lo) _ D) in E1. rewrite (after_char_app "." a _ A), (after_char_app "." (dec lo) _ D) in E2.
  cbn [before_char after_char append] in E1, E2. change (Ascii.eqb "." ".") with true in E1, E2. cbv iota in E1, E2.
  rewrite !str_app_nil in E1. split; [exact E1|]. injection E2 as E2. exact E2.
Qed.
Lemma oc_port_meaning r n : 0 <= fst r <= snd r -> 0 < snd r ->
  if_given (oc_port r) (oc_port_says n) <-> fst r <= n <= snd r.
Proof.
  intros H P. destruct r as [lo hi]. cbn [fst snd] in *. unfold oc_port. cbn [fst snd].
  destruct (Z.eqb_spec hi 0) as [E|_]; [lia|]. rewrite andb_false_r. destruct (Z.eqb_spec lo hi) as [<-|N]; cbn [if_given]; unfold oc_port_says.
  - split; [intros [E|(a & b & x & y & E & _)]; [injection E; lia|discriminate E]|]. intros B. left. f_equal. lia.
  - split.
    + intros [E|(a & b & x & y & E & A & B & C)]; [discriminate E|].
      assert (Q : append a (append ".." b) = append (dec lo) (append ".." (dec hi))) by (injection E; auto).
      apply port_text_split in Q; [|lia|lia|eexists; exact A]. destruct Q as [-> ->]. rewrite dec_value in A, B by lia.
      injection A as <-. injection B as <-. exact C.
    + intros B. right. exists (dec lo), (dec hi), lo, hi. rewrite !dec_value by lia. auto.
Qed.
Lemma oc_ports_meaning l n : (forall r, In r l -> 0 <= fst r <= snd r /\ 0 < snd r) ->
  (exists r, In r (or_zero l) /\ if_given (oc_port r) (oc_port_says n)) <-> ports_match l n.
Proof.
  intros H. unfold ports_match, in_ports. split.
  - intros (r & I & S). apply or_zero_in in I. destruct I as [[_ E]|I]; [left; exact E|right]. destruct (H r I) as [H1 H2].
    apply (oc_port_meaning r n H1 H2) in S. exists r. split; [exact I|exact S].
  - intros [->|(r & I & S)].
    + exists (0, 0). split; [left; reflexivity|exact Logic.I].
    + exists r. split; [apply or_zero_in; auto|]. destruct (H r I) as [H1 H2]. apply (oc_port_meaning r n H1 H2). exact S.
Qed.

(** What is left of one side. *)
Definition kept_side (inc exc r : list net) : Prop :=
  excludable r exc /\ (forall x, covered r x /\ ~ covered exc x <-> covered inc x /\ ~ covered exc x) /\ (exc = [] -> r = inc).
Definition done_side (inc exc r : list net) : Prop :=
  valid_list r /\ (forall x, covered r x <-> covered inc x /\ ~ covered exc x) /\ (exc = [] -> r = inc).
Lemma of_version v l n : In n (address_of_version l (Some v)) <-> In n l /\ nver n = v.
Proof. unfold address_of_version. rewrite filter_In, ver_eqb_eq. reflexivity. Qed.
Lemma oc_side_meaning v inc exc r x : done_side inc exc r -> side_present v inc exc -> fst x = v -> on_net x ->
  (exists s, In s (or_any (address_of_version r (Some v))) /\ if_given (option_map JStr (option_map prefixlen_text s)) (oc_address_says x)) <->
  side_matches inc exc x.
Proof.
  intros (V & C & N) P F O. unfold valid_list in V. rewrite Forall_forall in V.
  assert (K : (exists n, In n (address_of_version r (Some v)) /\ oc_address_says x (JStr (prefixlen_text n))) <-> covered r x).
  { split.
    - intros (n & I & s & E & S). apply of_version in I. destruct I as [I _]. injection E as <-. exists n. split; [exact I|]. apply range_text; auto.
    - intros (n & I & S). exists n. split; [apply of_version; split; [exact I|]; destruct S as [S _]; congruence|].
      exists (prefixlen_text n). split; [reflexivity|]. apply range_text; auto. }
  destruct P as [[-> ->]|(y & P1 & P2)].
  - rewrite (N eq_refl). split.
    + intros _. split; [left; reflexivity|]. rewrite covered_nil. tauto.
    + intros _. exists None. split; [left; reflexivity|exact Logic.I].
  - assert (Ne : inc <> []) by (intros ->; apply covered_nil in P1; exact P1).
    assert (Y : covered r (v, y)) by (apply C; auto). unfold side_matches. split.
    + intros (s & I & S). apply or_any_in in I. destruct I as [(-> & E)|(n & -> & I)].
      * exfalso. destruct Y as (n & In_ & [E1 _]). assert (X : In n []) by (rewrite <- E; apply of_version; split; [exact In_|exact E1]). destruct X.
      * assert (X : covered r x) by (apply K; exists n; auto). apply C in X. destruct X. auto.
    + intros [[E|X] Z]; [contradiction|]. assert (W : covered r x) by (apply C; auto). apply K in W. destruct W as (n & I & S).
      exists (Some n). split; [apply or_any_in; right; exists n; auto|exact S].
Qed.

(** Protocols as an earlier pass may have left them. *)
Definition kept_proto (s : string) (q : pval) : Prop := q = PName s \/ (s = "ipip" /\ q = PNum 4).
Lemma oc_proto_meaning names ps p : Forall2 kept_proto names ps ->
  (exists q n, In q (or_any ps) /\ pnumber q n /\ if_given (option_map JNum n) (oc_protocol_says p)) <->
  (names = [] \/ exists s, In s names /\ In s (map fst proto_map) /\ p_proto p = s).
Proof.
  intros F.
  assert (A : forall s k, assoc s proto_map = Some k -> In (s, k) proto_map) by (intros s k E; exact (assoc_in _ _ _ E)).
  split.
  - intros (q & n & I & N & S). apply or_any_in in I. destruct I as [(-> & E)|(x & -> & I)].
    + left. rewrite E in F. inversion F. reflexivity.
    + right. destruct (NamingProofs.Forall2_in_r _ _ _ _ F I) as (s & Is & [->|[-> ->]]); cbn [pnumber] in N.
      * destruct N as (k & E & ->). destruct S as (k' & E' & S). injection E' as <-. exists s. split; [exact Is|]. apply A in E.
        split; [apply in_map_iff; exists (s, k); auto|]. exact (proto_inj _ _ _ S E).
      * subst n. destruct S as (k' & E' & S). injection E' as <-. exists "ipip". split; [exact Is|].
        split; [apply str_in_spec; reflexivity|]. apply (proto_inj _ _ 4 S). apply A. reflexivity.
  - intros [->|(s & Is & Im & E)].
    + inversion F. exists None, None. split; [left; reflexivity|]. split; [reflexivity|exact Logic.I].
    + destruct (IptRule.Forall2_in_l _ _ _ _ F Is) as (q & Iq & K). destruct (assoc_some s proto_map Im) as (k & E2).
      exists (Some q), (Some k). split; [apply or_any_in; right; exists q; auto|]. split.
      * destruct K as [->|[-> ->]]; cbn [pnumber]; [exists k; auto|]. vm_compute in E2. congruence.
      * exists k. split; [reflexivity|]. rewrite E. exact (A _ _ E2).
Qed.

Lemma sweep_ok {A S R} (f : A -> S -> res (S * list R)) : forall l s o, sweep f l s = Ok o -> forall x, In x l -> exists s1 o1, f x s1 = Ok o1.
Proof.
  induction l as [|y l IH]; intros s o E x I; [destruct I|]. cbn [sweep] in E.
  destruct (f y s) as [[s1 r1]|] eqn:E1; [|discriminate E]. cbn [bind] in E.
  destruct (sweep f l s1) as [[s2 r2]|] eqn:E2; [|discriminate E]. destruct I as [<-|I]; [exists s, (s1, r1); exact E1|exact (IH _ _ E2 x I)].
Qed.
Lemma or_any_some {A} (l : list A) : exists x, In x (or_any l).
Proof. destruct l as [|a l]; [exists None|exists (Some a)]; left; reflexivity. Qed.
Lemma or_zero_some l : exists x, In x (or_zero l).
Proof. destruct l as [|a l]; [exists (0, 0)|exists a]; left; reflexivity. Qed.
Lemma oc_rules_known v t ss ds ps rs : oc_rules v t ss ds ps = Ok rs -> forall s, In (PName s) ps -> In s (map fst proto_map).
Proof.
  intros E s I. unfold oc_rules in E. match type of E with bind ?m _ = _ => destruct m as [o|] eqn:W; [|discriminate E] end. clear E.
  destruct (or_any_some ss) as (x1 & I1), (or_any_some ds) as (x2 & I2), (or_zero_some (t_source_port t)) as (x3 & I3), (or_zero_some (t_destination_port t)) as (x4 & I4).
  destruct (sweep_ok _ _ _ _ W x1 I1) as (s1 & o1 & W1). destruct (sweep_ok _ _ _ _ W1 x2 I2) as (s2 & o2 & W2).
  destruct (sweep_ok _ _ _ _ W2 x3 I3) as (s3 & o3 & W3). destruct (sweep_ok _ _ _ _ W3 x4 I4) as (s4 & o4 & W4).
  destruct (sweep_ok _ _ _ _ W4 (Some (PName s))) as (s5 & o5 & W5); [apply or_any_in; right; exists (PName s); auto|].
  cbn [set_proto] in W5. destruct (assoc s proto_map) as [k|] eqn:E; [|discriminate W5]. apply assoc_in in E. apply in_map_iff. exists (s, k). auto.
Qed.

(** ** Options *)
Lemma detail_step v q d : forall l, l <> [] -> (forall o, In o l -> forall d0,
    (let d1 := if str_in o ["tcp-established"; "established"] && negb (pnamed "udp" q) then Some "TCP_ESTABLISHED" else d0 in
     let d1 := if String.eqb o "initial" && pnamed "tcp" q then Some "TCP_INITIAL" else d1 in
     if String.eqb o "is-fragment" && ver_eqb v V4 then Some "FRAGMENT" else d1) = Some d) -> oc_detail v q l = Some d.
Proof.
  unfold oc_detail. intros l N H. assert (G : forall l d0, (forall o, In o l -> In o l) -> l <> [] -> (forall o, In o l -> forall d0,
    (let d1 := if str_in o ["tcp-established"; "established"] && negb (pnamed "udp" q) then Some "TCP_ESTABLISHED" else d0 in
     let d1 := if String.eqb o "initial" && pnamed "tcp" q then Some "TCP_INITIAL" else d1 in
     if String.eqb o "is-fragment" && ver_eqb v V4 then Some "FRAGMENT" else d1) = Some d) ->
    fold_left (fun d opt =>
      let d := if str_in opt ["tcp-established"; "established"] && negb (pnamed "udp" q) then Some "TCP_ESTABLISHED" else d in
      let d := if String.eqb opt "initial" && pnamed "tcp" q then Some "TCP_INITIAL" else d in
      if String.eqb opt "is-fragment" && ver_eqb v V4 then Some "FRAGMENT" else d) l d0 = Some d).
  { clear. induction l as [|o l IH]; intros d0 _ N H; [contradiction|]. cbn [fold_left]. cbv zeta. specialize (H o (or_introl eq_refl) d0) as H0. cbv zeta in H0. rewrite H0.
    destruct l as [|o' l]; [reflexivity|]. apply IH; [auto|discriminate|]. intros x I. apply H. right. exact I. }
  exact (G l None (fun o I => I) N H).
Qed.
Definition detail_given (p : packet) (d : option string) : Prop := match d with None => True | Some w => oc_detail_says p (JStr w) end.
Lemma kept_protos_in names ps q : Forall2 kept_proto names ps -> In q ps -> exists s, In s names /\ kept_proto s q.
Proof. intros F I. exact (NamingProofs.Forall2_in_r _ _ _ _ F I). Qed.
Lemma detail_meaning v t ps p q : oc_term_ok v t -> oc_traffic v p -> Forall2 kept_proto (t_protocol t) ps -> In q (or_any ps) ->
  any_or (t_protocol t) (eq (p_proto p)) ->
  (detail_given p (oc_detail v q (t_option t)) <-> forall o, In o (t_option t) -> p_option p o).
Proof.
  intros K T F Iq Pm. pose proof (ot_option _ _ K) as O.
  destruct (t_option t) as [|o0 os] eqn:Eo; [split; [intros _ o []|intros _; exact Logic.I]|].
  assert (Ne : o0 :: os <> []) by discriminate. assert (I0 : In o0 (o0 :: os)) by (left; reflexivity). revert O Ne I0. generalize (o0 :: os). clear Eo os. intros l O Ne I0.
  assert (Tcp : t_protocol t = ["tcp"] -> q = Some (PName "tcp") /\ p_proto p = "tcp").
  { intros E. rewrite E in F, Pm. inversion F as [|? ? ? ? K1 F1]; subst. inversion F1; subst. destruct K1 as [->|[X _]]; [|discriminate X].
    destruct Iq as [<-|[]]. split; [reflexivity|]. destruct Pm as [X|(a & [<-|[]] & X)]; [discriminate X|exact X]. }
  destruct O as [O|[(O & E)|[(O & E)|(O & E)]]].
  - contradiction.
  - destruct (Tcp E) as [-> Ep]. rewrite (detail_step v _ "TCP_ESTABLISHED" l Ne).
    2: { intros o I d0. destruct (O o I) as [->| ->]; reflexivity. }
    cbn [detail_given]. unfold oc_detail_says. split.
    + intros [(_ & _ & X)|[(X & _)|(X & _)]]; [|discriminate X|discriminate X]. intros o I. destruct (O o I) as [->| ->]; [exact X|apply (oq_established _ _ T), X].
    + intros H. left. split; [reflexivity|]. split; [exact Ep|]. specialize (H o0 I0). destruct (O o0 I0) as [->| ->]; [exact H|apply (oq_established _ _ T), H].
  - destruct (Tcp E) as [-> Ep]. rewrite (detail_step v _ "TCP_INITIAL" l Ne).
    2: { intros o I d0. rewrite (O o I). reflexivity. }
    cbn [detail_given]. unfold oc_detail_says. split.
    + intros [(X & _)|[(_ & _ & X)|(X & _)]]; [discriminate X| |discriminate X]. intros o I. rewrite (O o I). exact X.
    + intros H. right. left. split; [reflexivity|]. split; [exact Ep|]. rewrite <- (O o0 I0). exact (H o0 I0).
  - rewrite (detail_step v _ "FRAGMENT" l Ne).
    2: { intros o I d0. rewrite (O o I), E. reflexivity. }
    cbn [detail_given]. unfold oc_detail_says. split.
    + intros [(X & _)|[(X & _)|(_ & X)]]; [discriminate X|discriminate X|]. intros o I. rewrite (O o I). exact X.
    + intros H. right. right. split; [reflexivity|]. rewrite <- (O o0 I0). exact (H o0 I0).
Qed.

(** ** What an entry says *)
Lemma entry_says_made v desc act r seq p o : oc_entry_says v (oc_entry v desc act r seq) p o <->
  o = act /\ if_given (option_map JStr (oa_src (fst r))) (oc_address_says (p_src p)) /\
  if_given (option_map JStr (oa_dst (fst r))) (oc_address_says (p_dst p)) /\
  if_given (option_map JNum (oa_proto (fst r))) (oc_protocol_says p) /\
  if_given (oa_sport (fst r)) (oc_port_says (p_sport p)) /\ if_given (oa_dport (fst r)) (oc_port_says (p_dport p)) /\ detail_given p (snd r).
Proof.
  destruct (entry_paths v desc act r seq) as (E1 & E2 & E3 & E4 & E5 & E6 & E7 & E8 & _). unfold oc_entry_says. rewrite E8.
  assert (D : if_given (option_map (fun _ => JStr "BUILTIN") (snd r)) (fun m => m = JStr "BUILTIN" /\ exists d, option_map JStr (snd r) = Some d /\ oc_detail_says p d) <->
    detail_given p (snd r)).
  { destruct (snd r) as [w|]; cbn [if_given option_map detail_given]; [|reflexivity]. split.
    - intros (_ & d & X & Y). injection X as <-. exact Y.
    - intros X. split; [reflexivity|]. exists (JStr w). auto. }
  split.
  - intros [[X1 X2 X3 X4 X5 X6] Y]. rewrite E1 in X1. rewrite E2 in X2. rewrite E3 in X3. rewrite E4 in X4. rewrite E5 in X5. rewrite E6, E7 in X6.
    split; [congruence|]. repeat (split; [assumption|]). apply D, X6.
  - intros (-> & X1 & X2 & X3 & X4 & X5 & X6). split; [|reflexivity]. constructor; rewrite ?E1, ?E2, ?E3, ?E4, ?E5, ?E6, ?E7; try assumption. apply D, X6.
Qed.
Lemma numbered_in (f : oc_ace * option string -> Z -> json) : forall rs seq,
  (forall e, In e (numbered f seq rs) -> exists r k, In r rs /\ e = f r k) /\ (forall r, In r rs -> exists k, In (f r k) (numbered f seq rs)).
Proof.
  induction rs as [|r rs IH]; intros seq; [split; intros ? []|]. cbn [numbered]. destruct (IH (seq + 1)) as [A B]. split.
  - intros e [<-|I]; [exists r, (seq + 1); split; [left; reflexivity|reflexivity]|]. destruct (A e I) as (r' & k & R & E). exists r', k. split; [right; exact R|exact E].
  - intros r' [<-|I]; [exists (seq + 1); left; reflexivity|]. destruct (B r' I) as (k & K). exists k. right. exact K.
Qed.
Lemma entries_match v t ss ds ps rs desc act seq p o :
  oc_term_ok v t -> oc_traffic v p -> quiet "openconfig" t ->
  done_side (t_source_address t) (t_source_address_exclude t) ss -> done_side (t_destination_address t) (t_destination_address_exclude t) ds ->
  Forall2 kept_proto (t_protocol t) ps -> oc_rules v t (address_of_version ss (Some v)) (address_of_version ds (Some v)) ps = Ok rs ->
  ((exists e, In e (numbered (oc_entry v desc act) seq rs) /\ oc_entry_says v e p o) <-> term_matches t p /\ o = act).
Proof.
  intros K T Q Ds Dd Fp E. pose proof (oc_rules_known _ _ _ _ _ _ E) as Kn.
  assert (Pt : forall r, In r (t_source_port t ++ t_destination_port t) -> oc_port r <> None).
  { intros r I. destruct (ot_ports _ _ K r I) as [A B]. unfold oc_port. destruct (Z.eqb_spec (snd r) 0) as [X|_]; [lia|]. rewrite andb_false_r. destruct (_ =? _); discriminate. }
  pose proof (oc_rules_made v t _ _ ps (fun r I => Pt r (in_or_app _ _ _ (or_introl I))) (fun r I => Pt r (in_or_app _ _ _ (or_intror I))) rs E) as M.
  rewrite (quiet_matches "openconfig" t p Q (oq_platform _ _ T)).
  assert (Icm : any_or (t_icmp_type t) (eq (p_icmp_type p))) by (left; apply (ot_icmp _ _ K)).
  destruct (oq_src _ _ T) as [S1 S2], (oq_dst _ _ T) as [D1 D2].
  assert (On : forall x : ipaddr, fst x = v -> 0 <= snd x < 2 ^ width v -> on_net x) by (intros x <- H; exact H).
  pose proof (oc_side_meaning v _ _ _ (p_src p) Ds (proj2 (ot_src _ _ K)) S1 (On _ S1 S2)) as Ms.
  pose proof (oc_side_meaning v _ _ _ (p_dst p) Dd (proj2 (ot_dst _ _ K)) D1 (On _ D1 D2)) as Md.
  pose proof (oc_ports_meaning (t_source_port t) (p_sport p) (fun r I => ot_ports _ _ K r (in_or_app _ _ _ (or_introl I)))) as Mp.
  pose proof (oc_ports_meaning (t_destination_port t) (p_dport p) (fun r I => ot_ports _ _ K r (in_or_app _ _ _ (or_intror I)))) as Mq.
  pose proof (oc_proto_meaning (t_protocol t) ps p Fp) as Mr.
  assert (Mr' : (t_protocol t = [] \/ exists s, In s (t_protocol t) /\ In s (map fst proto_map) /\ p_proto p = s) <-> any_or (t_protocol t) (eq (p_proto p))).
  { unfold any_or. split; (intros [X|(s & I & X)]; [left; exact X|right; exists s; split; [exact I|]]); [apply X|].
    split; [|exact X]. destruct (Forall2_in_l _ _ _ _ Fp I) as (q & Iq & [->|[-> _]]); [exact (Kn s Iq)|apply str_in_spec; reflexivity]. }
  rewrite Mr' in Mr. clear Mr'. split.
  - intros (e & I & S). destruct (proj1 (numbered_in _ _ _) e I) as (r & k & Ir & ->). apply entry_says_made in S.
    destruct S as (-> & X1 & X2 & X3 & X4 & X5 & X6). split; [|reflexivity].
    apply M in Ir. destruct Ir as (s & Is & d & Id & sp & Isp & dp & Idp & q & Iq & A1 & A2 & A3 & A4 & A5 & A6).
    rewrite A1 in X1. rewrite A2 in X2. rewrite A3 in X4. rewrite A4 in X5. rewrite A6 in X6.
    assert (Pm : any_or (t_protocol t) (eq (p_proto p))) by (apply Mr; exists q, (oa_proto (fst r)); auto).
    split; [apply Ms; exists s; auto|]. split; [apply Md; exists d; auto|]. split; [exact Pm|]. split; [apply Mp; exists sp; auto|]. split; [apply Mq; exists dp; auto|].
    split; [|exact Icm]. apply (detail_meaning v t ps p q K T Fp Iq Pm). exact X6.
  - intros ((X1 & X2 & X3 & X4 & X5 & X6 & _) & ->). apply Ms in X1. apply Md in X2. pose proof X3 as Pm. apply Mr in X3. apply Mp in X4. apply Mq in X5.
    destruct X1 as (s & Is & X1), X2 as (d & Id & X2), X3 as (q & n & Iq & N & X3), X4 as (sp & Isp & X4), X5 as (dp & Idp & X5).
    assert (Ir : In (mkAce (option_map prefixlen_text s) (option_map prefixlen_text d) (oc_port sp) (oc_port dp) n, oc_detail v q (t_option t)) rs).
    { apply M. exists s. split; [exact Is|]. exists d. split; [exact Id|]. exists sp. split; [exact Isp|]. exists dp. split; [exact Idp|]. exists q. split; [exact Iq|].
      unfold as_made. cbn [fst snd oa_src oa_dst oa_sport oa_dport oa_proto]. auto 10. }
    destruct (proj2 (numbered_in (oc_entry v desc act) rs seq) _ Ir) as (k & Ik). eexists. split; [exact Ik|]. apply entry_says_made.
    cbn [fst snd oa_src oa_dst oa_sport oa_dport oa_proto]. split; [reflexivity|]. repeat (split; [assumption|]). apply (detail_meaning v t ps p q K T Fp Iq Pm). exact X6.
Qed.

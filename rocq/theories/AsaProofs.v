(** The lines of an ASA access list, read back word by word. *)
From Coq Require Import Lia ZifyBool ZifyNat.
From Verif Require Import SpecAsa BaseFacts IPFacts PyStrFacts TextProofs WrapProofs CiscoProofs CiscoProofs2 CiscoTerm CiscoAcl CiscoDup CiscoGroupRead CiscoGroupTerm QuietTerm ArubaProofs.
Local Open Scope string_scope.
Local Open Scope list_scope.
Local Open Scope Z_scope.

(** ** Runs of blanks *)
Lemma squeeze_aux s : (forall cur, split_ws_aux (squeeze false s) cur = split_ws_aux s cur) /\ split_ws_aux (squeeze true s) "" = split_ws_aux s "".
Proof.
  induction s as [|c s (IH1 & IH2)]; [split; reflexivity|]. cbn [squeeze]. destruct (is_ws c) eqn:W.
  - split.
    + intros cur. cbn [split_ws_aux]. change (is_ws " ") with true. rewrite W, IH2. reflexivity.
    + cbn [split_ws_aux]. rewrite W, IH2. reflexivity.
  - split; [intros cur|]; cbn [split_ws_aux]; rewrite W; apply IH1.
Qed.
Lemma squeeze_words s : split_ws (squeeze false s) = split_ws s.
Proof. apply squeeze_aux. Qed.
Lemma squeeze_line s b : has_char newline (squeeze b s) = false.
Proof.
  revert b. induction s as [|c s IH]; intros b; [reflexivity|]. cbn [squeeze]. destruct (is_ws c) eqn:W.
  - destruct b; [apply IH|]. cbn [has_char]. rewrite IH. reflexivity.
  - cbn [has_char]. rewrite IH, orb_false_r. destruct (Ascii.eqb newline c) eqn:E; [apply Ascii.eqb_eq in E; subst c; discriminate W|exact E].
Qed.

(** ** Ports and types by name *)
Lemma zassoc_in {A} n (l : list (Z * A)) x : zassoc n l = Some x -> In (n, x) l.
Proof. induction l as [|[m y] l IH]; [discriminate|]. cbn [zassoc]. destruct (n =? m) eqn:E; [intros H; injection H as ->; left; f_equal; lia|right; auto]. Qed.
Definition words_of_proto (proto : string) : list (string * Z) := if String.eqb proto "icmp" then icmp_names else SpecAsa.port_words proto.
Lemma get_protocol_spec n proto : 0 <= n -> one_word (get_protocol n proto) /\ named_value (words_of_proto proto) (get_protocol n proto) = Some n.
Proof.
  intros Hn. unfold get_protocol. destruct (zassoc n (asa_table proto)) as [s|] eqn:E.
  - apply zassoc_in in E.
    assert (F : forall l names, forallb (fun e => match split_ws (snd e) with [w] => String.eqb w (snd e) | _ => false end && match named_value names (snd e) with Some m => m =? fst e | None => false end) l = true ->
       In (n, s) l -> one_word s /\ named_value names s = Some n).
    { intros l names F I. rewrite forallb_forall in F. specialize (F _ I). cbn [fst snd] in F. apply andb_true_iff in F. destruct F as (A & B).
      split; [unfold one_word; destruct (split_ws s) as [|w [|? ?]]; try discriminate A; apply String.eqb_eq in A; congruence|].
      destruct (named_value names s) as [m|]; [f_equal; lia|discriminate B]. }
    unfold asa_table in E. unfold words_of_proto, SpecAsa.port_words.
    destruct (String.eqb proto "tcp") eqn:T; [apply String.eqb_eq in T; subst proto; apply (F asa_tcp); [vm_compute; reflexivity|exact E]|].
    destruct (String.eqb proto "udp") eqn:U; [apply String.eqb_eq in U; subst proto; apply (F asa_udp); [vm_compute; reflexivity|exact E]|].
    destruct (String.eqb proto "icmp") eqn:I; [apply (F asa_icmp); [vm_compute; reflexivity|exact E]|destruct E].
  - split; [apply split_ws_dec, Hn|]. unfold named_value. rewrite dec_value by exact Hn. reflexivity.
Qed.
Lemma value_not_word names w n : named_value names w = Some n -> forallb (fun e => negb (str_in (fst e) ["eq"; "range"; "log"; "any"; "host"])) names = true ->
  ~ In w ["eq"; "range"; "log"; "any"; "host"].
Proof.
  intros V F I. unfold named_value in V. assert (N : numeral_value w = None) by (destruct I as [<-|[<-|[<-|[<-|[<-|[]]]]]]; reflexivity).
  rewrite N in V. apply GenProofs.assoc_in in V. rewrite forallb_forall in F. specialize (F _ V). cbn [fst] in F. apply str_in_spec in I. rewrite I in F. discriminate F.
Qed.

(** ** Addresses *)
Definition addr_words (a : option net) : list string :=
  match a with
  | None => ["any"]
  | Some n => if 1 <? num_addresses n then [addr_text V4 (naddr n); addr_text V4 (netmask n)] else ["host"; addr_text V4 (naddr n)]
  end.
Definition addr_ok (a : option net) : Prop := match a with None => True | Some n => valid n /\ nver n = V4 end.
Definition addr_covers (a : option net) (x : Z) : Prop := match a with None => True | Some n => covers n (V4, x) end.
Lemma addr_text_words a : addr_ok a -> split_ws (asa_address a) = addr_words a.
Proof.
  destruct a as [n|]; [|reflexivity]. intros (V & E). pose proof V as (_ & Ha & _). cbn [asa_address addr_words]. rewrite E in *. destruct (1 <? num_addresses n).
  - rewrite split_ws_space, !split_ws_addr by (first [exact Ha|apply netmask_range; assumption]). reflexivity.
  - change ("host " ++ addr_text V4 (naddr n))%string with ("host" ++ " " ++ addr_text V4 (naddr n))%string. rewrite split_ws_space, split_ws_addr by exact Ha. reflexivity.
Qed.
Lemma read_addr a r : addr_ok a ->
  (match addr_words a ++ r with w :: _ => w <> "eq" /\ w <> "range" | [] => False end) /\
  exists P, asa_read_address (addr_words a ++ r) = Some (P, r) /\ forall x, 0 <= x < 2 ^ 32 -> (P x <-> addr_covers a x).
Proof.
  destruct a as [n|].
  2:{ intros _. split; [split; discriminate|]. eexists. split; [reflexivity|]. intros x _. reflexivity. }
  intros (V & E). pose proof V as (Hl & Ha & _). cbn [addr_words addr_covers]. rewrite E in *. unfold num_addresses. rewrite broadcast_eq by exact V.
  pose proof (value_addr_word V4 _ _ (addr_text_value V4 _ Ha)) as (W1 & W2 & W3 & W4).
  destruct (1 <? naddr n + size n - 1 - naddr n + 1) eqn:S; cbn [app].
  - split; [auto|]. eexists. split; [unfold asa_read_address; rewrite (eqb_neq' _ _ W1), (eqb_neq' _ _ W2); reflexivity|]. intros x Hx. apply mask_wildcard; assumption.
  - split; [split; discriminate|]. eexists. split; [reflexivity|]. intros x Hx. cbn beta. rewrite (addr_text_value V4 (naddr n) Ha). unfold covers. cbn [fst snd]. rewrite E.
    assert (0 < size n) by (unfold size; rewrite E; apply Z.pow_pos_nonneg; lia). split; [intros X; injection X as ->; split; [reflexivity|lia]|intros (_ & X); f_equal; lia].
Qed.

(** ** Ports *)
Definition sel_words (proto : string) (o : option prange) : list string :=
  match o with
  | None => []
  | Some (lo, hi) => if lo =? hi then ["eq"; get_protocol lo proto] else ["range"; get_protocol lo proto; get_protocol hi proto]
  end.
Lemma port_text_words proto o : oport_ok o -> split_ws (asa_port proto o) = sel_words proto o.
Proof.
  destruct o as [[lo hi]|]; [|reflexivity]. intros (A & B). cbn [fst snd] in A, B. cbn [asa_port sel_words].
  destruct (get_protocol_spec lo proto A) as (W1 & _). destruct (get_protocol_spec hi proto B) as (W2 & _). destruct (lo =? hi).
  - change (" eq " ++ get_protocol lo proto)%string with (String " " ("eq" ++ " " ++ get_protocol lo proto)%string). rewrite split_ws_lead, split_ws_space, W1. reflexivity.
  - change (" range " ++ get_protocol lo proto ++ " " ++ get_protocol hi proto)%string with (String " " ("range" ++ " " ++ (get_protocol lo proto ++ " " ++ get_protocol hi proto))%string).
    rewrite split_ws_lead, !split_ws_space, W1, W2. reflexivity.
Qed.
Definition no_sel (r : list string) : Prop := match r with w :: _ => w <> "eq" /\ w <> "range" | [] => True end.
Lemma read_sel proto o r : oport_ok o -> (o <> None -> In proto with_ports) -> no_sel r ->
  exists P, asa_read_port proto (sel_words proto o ++ r) = (P, r) /\ forall x, P x <-> oport_covers o x.
Proof.
  intros K Np Nr. unfold asa_read_port. destruct o as [[lo hi]|]; cbn [sel_words].
  - assert (I : In proto with_ports) by (apply Np; discriminate). pose proof (proj2 (str_in_spec proto with_ports) I) as ->. cbn [negb].
    destruct K as (A & B). cbn [fst snd] in A, B. destruct (get_protocol_spec lo proto A) as (_ & W1). destruct (get_protocol_spec hi proto B) as (_ & W2).
    assert (E : words_of_proto proto = SpecAsa.port_words proto) by (destruct I as [<-|[<-|[<-|[]]]]; reflexivity). rewrite E in W1, W2. cbn [oport_covers]. unfold SpecPorts.in_range. cbn [fst snd].
    destruct (lo =? hi) eqn:Q; cbn [app].
    + eexists. split; [reflexivity|]. intros x. cbn beta. rewrite W1. split; [intros X; injection X as ->; lia|intros X; f_equal; lia].
    + eexists. split; [reflexivity|]. intros x. cbn beta. rewrite W1, W2. split; [intros (a & b & X & Y & Z); injection X as <-; injection Y as <-; exact Z|intros X; exists lo, hi; auto].
  - cbn [app]. exists (fun _ => True). split; [|intros x; reflexivity]. destruct (negb (str_in proto with_ports)); [reflexivity|].
    destruct r as [|w [|a r]]; [reflexivity|reflexivity|]. destruct Nr as (N1 & N2). rewrite (eqb_neq' _ _ N1), (eqb_neq' _ _ N2). destruct r; reflexivity.
Qed.

(** ** The type and the end of a rule *)
Definition ty_words (ty : option Z) : list string := match ty with Some n => [get_protocol n "icmp"] | None => [] end.
Definition tail_ok (opts : list string) : Prop := In opts [[]; ["log"]; ["log"; "disable"]].
Lemma tail_sel opts ty : tail_ok opts -> (forall n, ty = Some n -> 0 <= n) -> no_sel (ty_words ty ++ opts).
Proof.
  intros T Ht. destruct ty as [n|]; cbn [ty_words app].
  - destruct (get_protocol_spec n "icmp" (Ht n eq_refl)) as (_ & V). pose proof (value_not_word _ _ _ V eq_refl) as N. cbn [no_sel]. split; intros X; rewrite X in N; apply N; cbn; auto.
  - destruct T as [<-|[<-|[<-|[]]]]; cbn [no_sel]; auto; split; discriminate.
Qed.
Lemma read_ty proto opts ty : tail_ok opts -> (forall n, ty = Some n -> 0 <= n /\ proto = "icmp") ->
  exists P, asa_read_type proto (ty_words ty ++ opts) = (P, opts) /\ forall p, P p <-> type_says V4 ty p.
Proof.
  intros T Ht. destruct ty as [n|]; cbn [ty_words app type_says].
  - destruct (Ht n eq_refl) as (Hn & ->). destruct (get_protocol_spec n "icmp" Hn) as (_ & V). unfold asa_read_type.
    change (words_of_proto "icmp") with icmp_names in V. cbn [String.eqb Ascii.eqb Bool.eqb]. rewrite V. eexists. split; [reflexivity|]. intros p. reflexivity.
  - exists (fun _ => True). split; [|intros p; reflexivity]. unfold asa_read_type. destruct T as [<-|[<-|[<-|[]]]]; [reflexivity| |];
      (destruct (String.eqb proto "icmp"); [change (named_value icmp_names "log") with (@None Z)|]; reflexivity).
Qed.

(** ** Rules *)
Definition asa_words (action proto : string) (sa : option net) (sp : option prange) (da : option net) (dp : option prange) (ty : option Z) (opts : list string) : list string :=
  action :: proto :: addr_words sa ++ sel_words proto sp ++ addr_words da ++ sel_words proto dp ++ ty_words ty ++ opts.
Record rule_ok (proto : string) (sa : option net) (sp : option prange) (da : option net) (dp : option prange) (ty : option Z) (opts : list string) : Prop := {
  ru_proto : one_word proto;
  ru_sa : addr_ok sa; ru_da : addr_ok da;
  ru_sp : oport_ok sp /\ (sp <> None -> In proto with_ports); ru_dp : oport_ok dp /\ (dp <> None -> In proto with_ports);
  ru_ty : forall n, ty = Some n -> 0 <= n /\ proto = "icmp";
  ru_opts : tail_ok opts }.
Lemma asa_line_words name action proto sa sp da dp ty opts : one_word name -> one_word action -> rule_ok proto sa sp da dp ty opts ->
  split_ws (asa_line name action proto sa sp da dp ty opts) = "access-list" :: name :: "extended" :: asa_words action proto sa sp da dp ty opts /\
  has_char newline (asa_line name action proto sa sp da dp ty opts) = false.
Proof.
  intros Wn Wa [Wp A1 A2 (P1 & _) (P2 & _) Ht To]. unfold asa_line. split; [|apply rstrip_line, squeeze_line].
  rewrite split_ws_rstrip, squeeze_words.
  match goal with |- context [join " " ?l] => set (l0 := l) end.
  change ("access-list " ++ name ++ " extended  " ++ join " " l0)%string with ("access-list" ++ " " ++ (name ++ " " ++ ("extended" ++ " " ++ String " " (join " " l0))))%string.
  rewrite !split_ws_space, split_ws_lead, split_ws_join, Wn. change (split_ws "access-list") with ["access-list"]. change (split_ws "extended") with ["extended"]. cbn [app]. do 3 f_equal.
  unfold l0. cbn [map concat]. rewrite Wa, Wp, !addr_text_words, !port_text_words by assumption. unfold asa_words. cbn [app]. do 2 f_equal. do 4 f_equal.
  assert (E1 : split_ws match ty with Some n => get_protocol n "icmp" | None => "" end = ty_words ty).
  { destruct ty as [n|]; [|reflexivity]. apply get_protocol_spec, Ht. reflexivity. }
  rewrite E1, app_nil_r. f_equal. destruct To as [<-|[<-|[<-|[]]]]; reflexivity.
Qed.
Lemma asa_words_say action proto sa sp da dp ty opts p outcome : rule_ok proto sa sp da dp ty opts -> asa_traffic p ->
  (asa_rule_says p (asa_words action proto sa sp da dp ty opts) outcome <->
   action = outcome /\ In outcome ["permit"; "deny"] /\ (proto = "ip" \/ In proto asa_protocols /\ p_proto p = proto) /\
   addr_covers sa (snd (p_src p)) /\ oport_covers sp (p_sport p) /\ addr_covers da (snd (p_dst p)) /\ oport_covers dp (p_dport p) /\ type_says V4 ty p).
Proof.
  intros [Wp A1 A2 (P1 & P1') (P2 & P2') Ht To] (Q1 & Q2 & Q3 & Q4 & _).
  unfold asa_words, asa_rule_says.
  destruct (read_addr sa (sel_words proto sp ++ addr_words da ++ sel_words proto dp ++ ty_words ty ++ opts) A1) as (_ & S & -> & HS).
  destruct (read_addr da (sel_words proto dp ++ ty_words ty ++ opts) A2) as (Nd & D & ED & HD).
  assert (Nd' : no_sel (addr_words da ++ sel_words proto dp ++ ty_words ty ++ opts)) by (destruct (addr_words da ++ sel_words proto dp ++ ty_words ty ++ opts); [exact Logic.I|exact Nd]).
  destruct (read_sel proto sp _ P1 P1' Nd') as (SP & -> & HSP). cbv iota. rewrite ED.
  destruct (read_sel proto dp _ P2 P2' (tail_sel opts ty To (fun n E => proj1 (Ht n E)))) as (DP & -> & HDP).
  destruct (read_ty proto opts ty To Ht) as (TP & -> & HT). rewrite (HS _ Q2), (HD _ Q4), HSP, HDP, HT. unfold tail_ok in To. tauto.
Qed.

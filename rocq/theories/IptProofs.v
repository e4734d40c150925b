(** Pieces of iptables rules and the packets they admit. *)
From Coq Require Import Lia ZifyBool ZifyNat.
From Verif Require Import SpecIptables BaseFacts PyStrFacts TextProofs CiscoProofs CiscoProofs2 CiscoTerm WrapProofs IptText IPFacts.
Local Open Scope string_scope.
Local Open Scope list_scope.
Local Open Scope Z_scope.

(** ** Protocols *)

Definition proto_text (q : string) : string :=
  match assoc q ipt_proto_table with Some s => s | None => if nonempty q then append "-p " q else "" end.
Definition rd_start : reading := mkReading None [] false.
Definition set_proto (q : string) (st : reading) : reading := mkReading (Some q) (rd_modules st) (rd_flags st).
Definition add_module (m : string) (st : reading) : reading := mkReading (rd_proto st) (m :: rd_modules st) (rd_flags st).
Definition plain_proto (q : string) : bool :=
  quoteless q && negb (is_empty q) && forall_char (fun c => negb (is_ws c)) q && match numeral_value q with None => true | Some _ => false end
  && negb (String.eqb q "ipv6-icmp").
Lemma proto_names_plain : forallb plain_proto (map fst proto_map) = true.
Proof. vm_compute. reflexivity. Qed.
Lemma proto_plain q : In q (map fst proto_map) -> plain_proto q = true.
Proof. intros H. exact (proj1 (forallb_forall _ _) proto_names_plain q H). Qed.
Lemma proto_texts : forallb (fun q => str_in q ["all"; "icmpv6"] || String.eqb (proto_text q) (append "-p " q)) (map fst proto_map) = true.
Proof. vm_compute. reflexivity. Qed.
Lemma words_key k a : quoteless k = true -> split_ws k = [k] -> words a [a] -> words (k ++ String " " a)%string [k; a].
Proof. intros Q E A. change [k; a] with ([k] ++ [a]). apply words_cat; [rewrite <- E; apply words_simple, Q|exact A]. Qed.
Lemma proto_piece T v st q : rd_proto st = None -> In q (map fst proto_map) -> q <> "all" -> q <> "icmpv6" ->
  piece T v st (proto_text q) (fun p => p_proto p = q) (set_proto q st).
Proof.
  intros S I N1 N2. pose proof (proj1 (forallb_forall _ _) proto_texts q I) as E. cbv beta in E.
  replace (str_in q ["all"; "icmpv6"]) with false in E.
  2:{ symmetry. apply str_in_false. intros [X|[X|[]]]; congruence. }
  cbn [orb] in E. apply String.eqb_eq in E. rewrite E. pose proof (proto_plain q I) as P. unfold plain_proto in P.
  apply andb_true_iff in P. destruct P as (P & P6). apply andb_true_iff in P. destruct P as (P & Pn). apply andb_true_iff in P. destruct P as (P & Pw).
  apply andb_true_iff in P. destruct P as (Pq & Pe). apply negb_true_iff in Pe, P6.
  assert (W : words q [q]).
  { pose proof (words_simple q Pq) as W. rewrite split_ws_word in W; [exact W|exact Pw|destruct q; [discriminate Pe|discriminate]]. }
  apply (piece_iff T v st _ (protocol_arg q)).
  { intros p _. unfold protocol_arg. apply String.eqb_neq in N1. rewrite N1. destruct (numeral_value q); [discriminate Pn|]. rewrite P6. reflexivity. }
  apply (piece_one T v st _ ["-p"; q]); [apply (words_key "-p" q); [reflexivity|reflexivity|exact W]|].
  intros r. cbn [app read_rule]. change (String.eqb "-p" "-j") with false. change (String.eqb "-p" "--syn") with false. change (String.eqb "-p" "-p") with true.
  cbn match. rewrite S. reflexivity.
Qed.
Lemma lit_words s ws : quoteless s = true -> split_ws s = ws -> words s ws.
Proof. intros Q <-. apply words_simple, Q. Qed.
Lemma all_piece T v st : rd_proto st = None -> piece T v st "-p all" (fun _ => True) (set_proto "all" st).
Proof.
  intros S. apply (piece_one T v st _ ["-p"; "all"]); [apply lit_words; reflexivity|]. intros r. cbn [app read_rule]. cbn [String.eqb Ascii.eqb Bool.eqb].
  rewrite S. reflexivity.
Qed.
Lemma icmp6_piece T v st : rd_proto st = None -> piece T v st "-p ipv6-icmp" (fun p => p_proto p = "icmpv6") (set_proto "ipv6-icmp" st).
Proof.
  intros S. apply (piece_one T v st _ ["-p"; "ipv6-icmp"]); [apply lit_words; reflexivity|]. intros r. cbn [app read_rule]. cbn [String.eqb Ascii.eqb Bool.eqb].
  rewrite S. reflexivity.
Qed.

(** ** Options with one value *)

Definition plain_key (f : string) : bool := negb (str_in f ["-j"; "--syn"; "-p"; "-m"; "--tcp-flags"]) && quoteless f && match split_ws f with [g] => String.eqb g f | _ => false end.
Lemma value_piece T v st f a c : plain_key f = true -> words a [a] -> condition v st f a = Some c -> piece T v st (f ++ String " " a)%string c st.
Proof.
  intros K W E. unfold plain_key in K. apply andb_true_iff in K. destruct K as (K & K3). apply andb_true_iff in K. destruct K as (K1 & K2).
  apply negb_true_iff, str_in_false in K1. assert (K4 : split_ws f = [f]) by (destruct (split_ws f) as [|g [|]]; try discriminate K3; apply String.eqb_eq in K3; congruence). clear K3.
  apply (piece_one T v st _ [f; a]); [apply words_key; assumption|]. intros r. cbn [app read_rule].
  replace (String.eqb f "-j") with false by (symmetry; apply String.eqb_neq; intros ->; apply K1; cbn; auto).
  replace (String.eqb f "--syn") with false by (symmetry; apply String.eqb_neq; intros ->; apply K1; cbn; auto).
  replace (String.eqb f "-p") with false by (symmetry; apply String.eqb_neq; intros ->; apply K1; cbn; auto).
  replace (String.eqb f "-m") with false by (symmetry; apply String.eqb_neq; intros ->; apply K1; cbn; auto 6).
  replace (String.eqb f "--tcp-flags") with false by (symmetry; apply String.eqb_neq; intros ->; apply K1; cbn; auto 6).
  cbn match. rewrite E. reflexivity.
Qed.
Definition known_modules : list string := ["multiport"; "state"; "u32"; "length"; "comment"; "icmp6"].
Lemma module_piece T v st m : In m known_modules -> piece T v st ("-m " ++ m)%string (fun _ => True) (add_module m st).
Proof.
  intros I. exists ["-m"; m], []. split; [|split].
  - apply (words_key "-m" m); [reflexivity|reflexivity|]. unfold known_modules in I. cbn [In] in I. repeat destruct I as [<-|I]; try (apply lit_words; reflexivity). destruct I.
  - intros r. cbn [app read_rule fold_right]. cbn [String.eqb Ascii.eqb Bool.eqb]. apply str_in_iff in I. unfold known_modules in I. rewrite I. reflexivity.
  - intros p _. split; constructor.
Qed.
Lemma module_value_piece T v st m f a c : In m known_modules -> plain_key f = true -> words a [a] -> condition v (add_module m st) f a = Some c ->
  piece T v st ("-m " ++ m ++ String " " (f ++ String " " a))%string c (add_module m st).
Proof.
  intros I K W E. apply (piece_iff T v st _ (fun p => True /\ c p)); [tauto|].
  replace ("-m " ++ m ++ String " " (f ++ String " " a))%string with (("-m " ++ m) ++ String " " (f ++ String " " a))%string by (rewrite str_app_assoc; reflexivity).
  eapply piece_cat; [apply module_piece, I|]. apply value_piece; assumption.
Qed.
(** Addresses. *)
Definition net_says (v : ver) (o : option net) (x : Z) : Prop := match o with Some n => covers n (v, x) | None => True end.
Lemma all_valid v : valid (all_ips v).
Proof. destruct v; split; try (cbn; lia); split; try (cbn; lia); exists 0; reflexivity. Qed.
Lemma net_eqb_all v n : valid n -> net_eqb n (all_ips v) = true -> nver n = v /\ naddr n = 0 /\ nlen n = 0.
Proof. intros V H. apply net_eqb_spec in H; [|exact V|apply all_valid]. unfold prefix_of in H. injection H as -> -> ->. auto. Qed.
Lemma all_covers v x : 0 <= x < 2 ^ width v -> covers (all_ips v) (v, x).
Proof. intros H. split; [reflexivity|]. unfold size. cbn [naddr nver nlen all_ips plain snd]. rewrite Z.sub_0_r. lia. Qed.
Lemma covers_all v n x : valid n -> net_eqb n (all_ips v) = true -> 0 <= x < 2 ^ width v -> covers n (v, x).
Proof.
  intros V E H. apply net_eqb_all in E; [|exact V]. destruct E as (E1 & E2 & E3). split; [exact E1|]. unfold size. cbn [snd]. rewrite E1, E2, E3, Z.sub_0_r. lia.
Qed.
Lemma address_piece (T : packet -> Prop) v st flag o (addr : packet -> Z) : (flag = "-s" /\ addr = (fun p => snd (p_src p)) \/ flag = "-d" /\ addr = (fun p => snd (p_dst p))) ->
  (forall p, T p -> 0 <= addr p < 2 ^ width v) -> (forall n, o = Some n -> valid n /\ nver n = v) ->
  piece T v st (address_statement v flag o) (fun p => net_says v o (addr p)) st.
Proof.
  intros F R V. destruct o as [n|]; [|apply (piece_nil T v st)]. destruct (V n eq_refl) as (Vn & Vv). cbn [address_statement].
  destruct (net_eqb n (all_ips v)) eqn:E.
  - apply (piece_iff T v st _ (fun _ => True)); [|apply piece_nil]. intros p Tp. cbn [net_says]. split; [|auto]. intros _. apply covers_all; [exact Vn|exact E|apply R, Tp].
  - apply (piece_iff T v st _ (fun p => prefix_says v (prefixlen_text n) (addr p))).
    + intros p Tp. cbn [net_says]. rewrite <- Vv. apply prefix_text_says; [exact Vn|]. rewrite Vv. apply R, Tp.
    + apply value_piece.
      * destruct F as [(-> & _)|(-> & _)]; reflexivity.
      * apply words_plain, prefix_plain_arg, Vn.
      * destruct F as [(-> & ->)|(-> & ->)]; reflexivity.
Qed.
(** Interfaces. *)
Lemma interface_piece (T : packet -> Prop) v st flag o (name : packet -> string) : (flag = "-i" /\ name = p_src_if \/ flag = "-o" /\ name = p_dst_if) ->
  (forall s, o = Some s -> plain_arg s /\ has_char "+" s = false) ->
  piece T v st (if nonempty (given_text o) then append flag (append " " (given_text o)) else "") (fun p => opt_eq o (name p)) st.
Proof.
  intros F V. destruct o as [s|]; [|apply piece_nil]. destruct (V s eq_refl) as (P & N). cbn [given_text].
  replace (nonempty s) with true by (destruct P as (P & _); destruct s; [congruence|reflexivity]).
  apply value_piece.
  - destruct F as [(-> & _)|(-> & _)]; reflexivity.
  - apply words_plain, P.
  - destruct F as [(-> & ->)|(-> & ->)]; cbn [condition]; unfold condition; cbn [String.eqb Ascii.eqb Bool.eqb]; rewrite N; reflexivity.
Qed.
(** ICMP types and codes. *)
Definition icmp_says (v : ver) (ty co : option Z) (p : packet) : Prop := type_says v ty p /\ code_says co p.
Lemma code_text_spec co : (forall n, co = Some n -> 0 < n) -> (match co with Some n => if n =? 0 then "" else append "/" (dec n) | None => "" end) = match co with Some n => String "/" (dec n) | None => "" end.
Proof. intros H. destruct co as [n|]; [|reflexivity]. specialize (H n eq_refl). replace (n =? 0) with false by lia. reflexivity. Qed.
Lemma read_icmp_text ty co : 0 <= ty -> (forall n, co = Some n -> 0 < n) ->
  read_icmp (dec ty ++ match co with Some n => String "/" (dec n) | None => "" end)%string = Some (ty, co) /\
  plain_arg (dec ty ++ match co with Some n => String "/" (dec n) | None => "" end)%string.
Proof.
  intros H C. unfold read_icmp. destruct co as [n|].
  - specialize (C n eq_refl). rewrite split_char_app by (apply dec_no; [lia|reflexivity]). rewrite split_char_none by (apply dec_no; [lia|reflexivity]).
    cbn [map]. rewrite !number_dec by lia. split; [reflexivity|]. pose proof (dec_plain_arg ty H) as (D1 & D2). pose proof (dec_plain_arg n ltac:(lia)) as (_ & D3). split.
    + destruct (dec ty); [congruence|discriminate].
    + rewrite forall_char_app, D2. cbn [forall_char]. rewrite D3. reflexivity.
  - rewrite str_app_nil. rewrite split_char_none by (apply dec_no; [lia|reflexivity]). cbn [map]. rewrite number_dec by lia. split; [reflexivity|apply dec_plain_arg, H].
Qed.
Lemma icmp4_piece T v st ty co : proto_is "icmp" st = true -> 0 <= ty -> (forall n, co = Some n -> 0 < n) ->
  piece T v st (icmp_statement "icmp" (Some ty) co) (icmp_says V4 (Some ty) co) st.
Proof.
  intros S H C. unfold icmp_statement. rewrite (code_text_spec co C). change (String.eqb "icmp" "icmpv6") with false. cbv iota.
  destruct (read_icmp_text ty co H C) as (R & P). rewrite str_app_assoc.
  change (piece T v st ("--icmp-type" ++ String " " (dec ty ++ match co with Some n => String "/" (dec n) | None => "" end))%string (icmp_says V4 (Some ty) co) st).
  apply value_piece; [reflexivity|apply words_plain, P|]. unfold condition. cbn [String.eqb Ascii.eqb Bool.eqb]. rewrite S, R. reflexivity.
Qed.
Lemma icmp6_type_piece T v st ty co : proto_is "ipv6-icmp" st = true -> 0 <= ty -> (forall n, co = Some n -> 0 < n) ->
  piece T v st (icmp_statement "icmpv6" (Some ty) co) (icmp_says V6 (Some ty) co) (add_module "icmp6" st).
Proof.
  intros S H C. unfold icmp_statement. rewrite (code_text_spec co C). change (String.eqb "icmpv6" "icmpv6") with true. cbv iota.
  destruct (read_icmp_text ty co H C) as (R & P). rewrite str_app_assoc.
  change (piece T v st ("-m " ++ "icmp6" ++ String " " ("--icmpv6-type" ++ String " " (dec ty ++ match co with Some n => String "/" (dec n) | None => "" end)))%string (icmp_says V6 (Some ty) co) (add_module "icmp6" st)).
  apply module_value_piece; [cbn; auto 8|reflexivity|apply words_plain, P|]. unfold condition. cbn [String.eqb Ascii.eqb Bool.eqb]. unfold proto_is in *. cbn [rd_proto add_module]. rewrite S, R. reflexivity.
Qed.

(** ** TCP flags *)

(** The flags a word of --tcp-flags stands for. *)
Definition flag_meaning (g : string) : list string := if String.eqb g "ALL" then tcp_flags else match assoc g tcp_flag_names with Some f => [f] | None => [] end.
Definition flag_words : list string := "ALL" :: map fst tcp_flag_names.
Lemma flag_words_plain g : In g flag_words -> has_char "," g = false /\ plain_arg g.
Proof. intros I. cbn in I. repeat destruct I as [<-|I]; try (split; [reflexivity|split; [discriminate|reflexivity]]). destruct I. Qed.
Lemma read_flag_word g : In g flag_words ->
  (if String.eqb g "ALL" then Some tcp_flags else if String.eqb g "NONE" then Some [] else option_map (fun h => [h]) (assoc g tcp_flag_names)) = Some (flag_meaning g).
Proof. intros I. cbn in I. repeat destruct I as [<-|I]; try reflexivity. destruct I. Qed.
Lemma split_join_comma l : l <> [] -> (forall w, In w l -> has_char "," w = false) -> split_char "," (join "," l) = l.
Proof.
  induction l as [|x l IH]; intros N H; [congruence|]. destruct l as [|y l].
  - cbn [join]. apply split_char_none, H. left. reflexivity.
  - change (join "," (x :: y :: l)) with (x ++ String "," (join "," (y :: l)))%string. rewrite split_char_app by (apply H; left; reflexivity).
    rewrite IH; [reflexivity|discriminate|]. intros w I. apply H. right. exact I.
Qed.
Lemma read_flags_join l : l <> [] -> (forall g, In g l -> In g flag_words) -> read_flags (join "," l) = Some (flat_map flag_meaning l).
Proof.
  intros N H. unfold read_flags. rewrite split_join_comma by (try exact N; intros w I; apply flag_words_plain, H, I). clear N.
  assert (E : forall f, (forall g, In g l -> f g = Some (flag_meaning g)) -> all_some (map f l) = Some (map flag_meaning l)).
  { intros f Hf. clear H. induction l as [|g l IH]; [reflexivity|]. cbn [map all_some]. rewrite (Hf g (or_introl eq_refl)), IH by (intros h I; apply Hf; right; exact I). reflexivity. }
  rewrite E by (intros g I; apply read_flag_word, H, I). cbn [option_map]. rewrite flat_map_concat_map. reflexivity.
Qed.
Lemma join_plain l : l <> [] -> (forall w, In w l -> plain_arg w) -> plain_arg (join "," l).
Proof.
  intros N H. split.
  - destruct l as [|x l]; [congruence|]. destruct (H x (or_introl eq_refl)) as (X & _). destruct l; cbn [join]; [exact X|]. destruct x; [congruence|discriminate].
  - apply forall_char_join; [reflexivity|]. intros x I. apply H, I.
Qed.
Lemma sorted_set_nonnil l : l <> [] -> sorted_set l <> [].
Proof. intros N E. destruct l as [|x l]; [congruence|]. pose proof (proj2 (sorted_set_in x (x :: l)) (or_introl eq_refl)) as I. rewrite E in I. destruct I. Qed.
Definition meanings (l : list string) (f : string) : Prop := exists g, In g l /\ In f (flag_meaning g).
Lemma meanings_set l f : In f (flat_map flag_meaning (sorted_set l)) <-> meanings l f.
Proof. rewrite in_flat_map. unfold meanings. split; intros (g & I & M); exists g; (split; [apply sorted_set_in, I|exact M]). Qed.
Lemma flags_piece (T : packet -> Prop) v st mask comp : proto_is "tcp" st = true -> rd_flags st = false -> mask <> [] -> comp <> [] ->
  (forall g, In g (mask ++ comp) -> In g flag_words) ->
  piece T v st ("--tcp-flags " ++ join "," (sorted_set mask) ++ String " " (join "," (sorted_set comp)))%string
    (fun p => forall f, In f tcp_flags -> (meanings mask f /\ p_option p f <-> meanings comp f)) (mkReading (rd_proto st) (rd_modules st) true).
Proof.
  intros S F Nm Nc H.
  assert (Hm : forall g, In g (sorted_set mask) -> In g flag_words) by (intros g I; apply H, in_or_app; left; apply sorted_set_in, I).
  assert (Hc : forall g, In g (sorted_set comp) -> In g flag_words) by (intros g I; apply H, in_or_app; right; apply sorted_set_in, I).
  apply (piece_iff T v st _ (flags_say (flat_map flag_meaning (sorted_set mask)) (flat_map flag_meaning (sorted_set comp)))).
  { intros p _. unfold flags_say. split; intros X f I; specialize (X f I); rewrite !meanings_set in *; exact X. }
  apply (piece_one T v st _ ["--tcp-flags"; join "," (sorted_set mask); join "," (sorted_set comp)]).
  - change ["--tcp-flags"; join "," (sorted_set mask); join "," (sorted_set comp)] with (["--tcp-flags"] ++ [join "," (sorted_set mask)] ++ [join "," (sorted_set comp)]).
    apply (words_cat "--tcp-flags"); [apply lit_words; reflexivity|].
    apply words_cat; apply words_plain, join_plain; try (apply sorted_set_nonnil; assumption); intros w I; apply flag_words_plain; auto.
  - intros r. cbn [app read_rule]. cbn [String.eqb Ascii.eqb Bool.eqb]. rewrite S, F. cbn [negb andb].
    rewrite !read_flags_join by (try apply sorted_set_nonnil; assumption). reflexivity.
Qed.

(** ** Ports *)

Definition slots_of (ch : list prange) : nat := fold_right (fun (r : prange) n => Nat.add (if fst r =? snd r then 1%nat else 2%nat) n) O ch.
Definition port_args (ch : list prange) : list string := map (fun r => range_arg (fst r) (snd r)) ch.
Definition render (letter : string) (ch : list prange) : string :=
  match ch with
  | [r] => append "--" (append letter (append "port " (range_arg (fst r) (snd r))))
  | _ => append "-m multiport --" (append letter (append "ports " (join "," (port_args ch))))
  end.
Definition slot_of (r : prange) : nat := if fst r =? snd r then 1%nat else 2%nat.
Lemma slots_cons r ch : slots_of (r :: ch) = (slot_of r + slots_of ch)%nat.
Proof. reflexivity. Qed.
Lemma slots_app a b : slots_of (a ++ b) = (slots_of a + slots_of b)%nat.
Proof. induction a as [|x a IH]; [reflexivity|]. cbn [app]. rewrite !slots_cons, IH. lia. Qed.
Lemma slots_long ch : (slots_of ch <= 2 * List.length ch)%nat.
Proof. induction ch as [|x ch IH]; [cbn; lia|]. rewrite slots_cons. cbn [List.length]. unfold slot_of. destruct (fst x =? snd x); lia. Qed.
Lemma render_long letter ch : (2 <= List.length ch)%nat -> render letter ch = append "-m multiport --" (append letter (append "ports " (join "," (port_args ch)))).
Proof. destruct ch as [|a [|b ch]]; cbn; [lia|lia|reflexivity]. Qed.
Lemma port_loop_spec letter : forall ports ch count, count = Z.of_nat (slots_of ch) -> count < 14 ->
  exists chunks, port_statements_loop letter ports (rev (port_args ch)) count = map (render letter) chunks /\ concat chunks = ch ++ ports /\
    Forall (fun ch => ch <> [] /\ (slots_of ch <= 15)%nat) chunks /\ Forall (fun ch => (2 <= List.length ch)%nat) (removelast chunks).
Proof.
  induction ports as [|(lo, hi) rest IH]; intros ch count Hc Lt.
  - cbn [port_statements_loop]. destruct ch as [|a [|b ch]].
    + exists []. cbn. repeat split; constructor.
    + exists [[a]]. split; [reflexivity|]. split; [reflexivity|]. split; [|constructor]. constructor; [|constructor]. split; [discriminate|]. rewrite slots_cons. cbn [slots_of fold_right]. unfold slot_of. destruct (fst a =? snd a); lia.
    + exists [a :: b :: ch]. remember (a :: b :: ch) as l eqn:El. assert (L : (2 <= List.length l)%nat) by (subst l; cbn; lia). clear El.
      assert (R : exists x y z, rev (port_args l) = x :: y :: z).
      { assert (K : (2 <= List.length (rev (port_args l)))%nat) by (rewrite rev_length; unfold port_args; rewrite map_length; exact L).
        destruct (rev (port_args l)) as [|x [|y z]]; cbn in K; try lia. eauto. }
      destruct R as (x & y & z & R). rewrite R. unfold multiport. rewrite <- R, rev_involutive. cbn [map concat removelast]. rewrite !app_nil_r.
      split; [rewrite render_long by exact L; reflexivity|]. split; [reflexivity|]. split; [|constructor].
      constructor; [|constructor]. split; [intros ->; cbn in L; lia|lia].
  - cbn [port_statements_loop].
    assert (Eq : (if lo =? hi then dec lo else append (dec lo) (append ":" (dec hi))) :: rev (port_args ch) = rev (port_args (ch ++ [(lo, hi)]))).
    { unfold port_args. rewrite map_app, rev_app_distr. reflexivity. }
    rewrite Eq. set (ch' := ch ++ [(lo, hi)]). assert (Hs : count + (if lo =? hi then 1 else 2) = Z.of_nat (slots_of ch')).
    { unfold ch'. rewrite slots_app, slots_cons. unfold slot_of. cbn [slots_of fold_right fst snd]. destruct (lo =? hi); lia. }
    rewrite Hs. destruct (14 <=? Z.of_nat (slots_of ch')) eqn:E.
    + destruct (IH [] 0 eq_refl ltac:(lia)) as (chunks & I1 & I2 & I3 & I4). exists (ch' :: chunks).
      assert (L : (2 <= List.length ch')%nat) by (pose proof (slots_long ch'); lia).
      cbn [map]. change (rev (port_args [])) with (@nil string) in I1. rewrite I1. split; [|split; [|split]].
      * unfold multiport. rewrite rev_involutive, render_long by exact L. reflexivity.
      * cbn [concat]. rewrite I2. unfold ch'. rewrite <- app_assoc. reflexivity.
      * constructor; [|exact I3]. split; [intros X; rewrite X in L; cbn in L; lia|]. destruct (lo =? hi); lia.
      * destruct chunks as [|x chunks]; [constructor|]. cbn [removelast]. constructor; [exact L|exact I4].
    + destruct (IH ch' _ eq_refl ltac:(lia)) as (chunks & I1 & I2 & I3 & I4). exists chunks. split; [exact I1|]. split; [|split; assumption].
      rewrite I2. unfold ch'. rewrite <- app_assoc. reflexivity.
Qed.
Lemma port_statements_spec letter ports : exists chunks, port_statements letter ports = map (render letter) chunks /\ concat chunks = ports /\
  Forall (fun ch => ch <> [] /\ (slots_of ch <= 15)%nat) chunks /\ Forall (fun ch => (2 <= List.length ch)%nat) (removelast chunks).
Proof. exact (port_loop_spec letter ports [] 0 eq_refl ltac:(lia)). Qed.

Lemma port_range_arg r : port_ok r -> port_range (range_arg (fst r) (snd r)) = Some r.
Proof. intros (A & B). unfold port_range. rewrite read_range_arg by exact A. cbn [snd]. replace (snd r <=? 65535) with true by lia. destruct r; reflexivity. Qed.
Lemma port_args_split ch : ch <> [] -> (forall r, In r ch -> port_ok r) -> split_char "," (join "," (port_args ch)) = port_args ch.
Proof.
  intros N H. apply split_join_comma; [destruct ch; [congruence|discriminate]|]. intros w I. unfold port_args in I. apply in_map_iff in I. destruct I as (r & <- & I).
  apply range_arg_no; [apply H, I|reflexivity|discriminate].
Qed.
Lemma range_arg_slots lo hi : 0 <= lo <= hi -> List.length (split_char ":" (range_arg lo hi)) = if lo =? hi then 1%nat else 2%nat.
Proof.
  intros H. unfold range_arg. destruct (lo =? hi) eqn:E.
  - rewrite split_char_none by (apply dec_no; [lia|reflexivity]). reflexivity.
  - change (append ":" (dec hi)) with (String ":" (dec hi)). rewrite split_char_app by (apply dec_no; [lia|reflexivity]).
    rewrite split_char_none by (apply dec_no; [lia|reflexivity]). reflexivity.
Qed.
Lemma port_args_slots ch : ch <> [] -> (forall r, In r ch -> port_ok r) -> slots (join "," (port_args ch)) = slots_of ch.
Proof.
  intros N H. unfold slots. rewrite port_args_split by assumption. clear N. induction ch as [|r ch IH]; [reflexivity|].
  rewrite slots_cons. unfold slot_of. cbn [port_args map flat_map]. rewrite app_length, range_arg_slots by (apply H; left; reflexivity).
  change (map _ ch) with (port_args ch). rewrite IH by (intros x I; apply H; right; exact I). reflexivity.
Qed.
Lemma port_ranges_args ch : ch <> [] -> (slots_of ch <= 15)%nat -> (forall r, In r ch -> port_ok r) -> port_ranges (join "," (port_args ch)) = Some ch.
Proof.
  intros N L H. unfold port_ranges. rewrite port_args_slots by assumption. replace (slots_of ch <=? 15)%nat with true by lia.
  rewrite port_args_split by assumption. clear N L. induction ch as [|r ch IH]; [reflexivity|]. cbn [port_args map all_some].
  rewrite port_range_arg by (apply H; left; reflexivity). change (map _ ch) with (port_args ch). rewrite IH by (intros x I; apply H; right; exact I). reflexivity.
Qed.
Definition is_side (letter : string) (port : packet -> Z) : Prop := letter = "s" /\ port = p_sport \/ letter = "d" /\ port = p_dport.
Lemma single_piece T v st letter port r : is_side letter port -> with_ports st = true -> has_module "multiport" st = false -> port_ok r ->
  piece T v st (render letter [r]) (fun p => in_ports [r] (port p)) st.
Proof.
  intros Sd P M R. apply (piece_iff T v st _ (fun p => SpecPorts.in_range r (port p))).
  { intros p _. unfold in_ports. split; [intros X; exists r; split; [left; reflexivity|exact X]|intros (x & [<-|[]] & X); exact X]. }
  assert (W : words (range_arg (fst r) (snd r)) [range_arg (fst r) (snd r)]) by (apply words_plain, range_plain; apply R).
  destruct Sd as [(-> & ->)|(-> & ->)].
  - change (render "s" [r]) with ("--sport" ++ String " " (range_arg (fst r) (snd r)))%string. apply value_piece; [reflexivity|exact W|].
    unfold condition. cbn [String.eqb Ascii.eqb Bool.eqb]. rewrite P, M. cbn [negb andb]. rewrite port_range_arg by exact R. reflexivity.
  - change (render "d" [r]) with ("--dport" ++ String " " (range_arg (fst r) (snd r)))%string. apply value_piece; [reflexivity|exact W|].
    unfold condition. cbn [String.eqb Ascii.eqb Bool.eqb]. rewrite P, M. cbn [negb andb]. rewrite port_range_arg by exact R. reflexivity.
Qed.
Lemma multi_piece T v st letter port ch : is_side letter port -> with_ports st = true -> (2 <= List.length ch)%nat -> (slots_of ch <= 15)%nat -> (forall r, In r ch -> port_ok r) ->
  piece T v st (render letter ch) (fun p => in_ports ch (port p)) (add_module "multiport" st).
Proof.
  intros Sd P L S R. rewrite render_long by exact L. assert (N : ch <> []) by (intros ->; cbn in L; lia).
  assert (W : words (join "," (port_args ch)) [join "," (port_args ch)]).
  { apply words_plain, join_plain; [destruct ch; [congruence|discriminate]|]. intros w I. unfold port_args in I. apply in_map_iff in I. destruct I as (r & <- & I). apply range_plain, R, I. }
  destruct Sd as [(-> & ->)|(-> & ->)].
  - change (piece T v st ("-m " ++ "multiport" ++ String " " ("--sports" ++ String " " (join "," (port_args ch))))%string (fun p => in_ports ch (p_sport p)) (add_module "multiport" st)).
    apply module_value_piece; [cbn; auto|reflexivity|exact W|]. unfold condition. cbn [String.eqb Ascii.eqb Bool.eqb].
    change (with_ports (add_module "multiport" st)) with (with_ports st). rewrite P. change (has_module "multiport" (add_module "multiport" st)) with true. cbn [andb].
    rewrite port_ranges_args by assumption. reflexivity.
  - change (piece T v st ("-m " ++ "multiport" ++ String " " ("--dports" ++ String " " (join "," (port_args ch))))%string (fun p => in_ports ch (p_dport p)) (add_module "multiport" st)).
    apply module_value_piece; [cbn; auto|reflexivity|exact W|]. unfold condition. cbn [String.eqb Ascii.eqb Bool.eqb].
    change (with_ports (add_module "multiport" st)) with (with_ports st). rewrite P. change (has_module "multiport" (add_module "multiport" st)) with true. cbn [andb].
    rewrite port_ranges_args by assumption. reflexivity.
Qed.
Lemma contains_char c s t : contains s t -> has_char c t = true -> has_char c s = true.
Proof. intros (a & b & ->) H. rewrite !has_char_app, H. rewrite orb_true_r. reflexivity. Qed.
Lemma render_multi letter ch : (2 <= List.length ch)%nat -> substring_of "multiport" (render letter ch) = true.
Proof.
  intros L. rewrite render_long by exact L. apply substring_of_spec. exists "-m ", (" --" ++ letter ++ "ports " ++ join "," (port_args ch))%string. reflexivity.
Qed.
Lemma render_single letter port r : is_side letter port -> port_ok r -> substring_of "multiport" (render letter [r]) = false.
Proof.
  intros Sd R. destruct (substring_of "multiport" (render letter [r])) eqn:E; [|reflexivity]. exfalso. apply substring_of_spec in E.
  apply (contains_char "m") in E; [|reflexivity]. revert E. assert (N : has_char "m" (range_arg (fst r) (snd r)) = false) by (apply range_arg_no; [apply R|reflexivity|discriminate]).
  destruct Sd as [(-> & _)|(-> & _)]; unfold render; rewrite !has_char_app; cbn [has_char Ascii.eqb Bool.eqb orb]; rewrite N; discriminate.
Qed.

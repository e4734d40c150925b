(** Cisco terms with the option established for TCP and UDP together: the word is on the TCP
    lines only. *)
From Verif Require Import CiscoTerm.
From Verif Require Import SpecCisco CiscoProofs CiscoProofs2.
Require Import Lia ZifyBool.
Local Open Scope string_scope.
Local Open Scope list_scope.
Local Open Scope Z_scope.

(** the protocol columns *)
Definition tcp_udp (l : list string) : Prop := l = ["tcp"; "udp"] \/ l = ["udp"; "tcp"].
Lemma tu_protocols c l : tcp_udp l -> exists ps, term_protocols ["ipip"] l = Ok ps /\
  forall q, In q (cisco_protocols c ps) <-> In q (cisco_protocols c [PName "tcp"]) \/ In q (cisco_protocols c [PName "udp"]).
Proof.
  intros [->| ->]; eexists; (split; [vm_compute; reflexivity|]); intros q; unfold cisco_protocols; destruct (c_proto_int c); cbn; tauto.
Qed.
Lemma one_protocol q : q = "tcp" \/ q = "udp" -> term_protocols ["ipip"] [q] = Ok [PName q].
Proof. intros [->| ->]; vm_compute; reflexivity. Qed.
Lemma col1 c q : q = "tcp" \/ q = "udp" -> cisco_protocols c [PName q] = [Some (PName q)].
Proof. intros [->| ->]; unfold cisco_protocols; destruct (c_proto_int c); reflexivity. Qed.

Lemma cisco_tcp_udp c t lines : tcp_udp (t_protocol t) -> (In "established" (t_option t) \/ In "tcp-established" (t_option t)) ->
  t_icmp_type t = [] -> t_verbatim t = [] -> t_action t <> [] -> cisco_term c t = Ok lines ->
  exists lt lu, cisco_term c (set_protocol ["tcp"] t) = Ok lt /\ cisco_term c (set_protocol ["udp"] (set_option [] t)) = Ok lu /\
    forall l, In l lines <-> In l lt \/ In l lu.
Proof.
  intros P E Ti Ve Ac H.
  destruct (tu_protocols c _ P) as (ps & Eps & Hps).
  assert (Eb : str_in "tcp-established" (t_option t) || str_in "established" (t_option t) = true).
  { apply orb_true_iff. destruct E as [E|E]; [right|left]; apply str_in_iff, E. }
  assert (Ni : str_in "icmp" (t_protocol t) = false /\ str_in "icmpv6" (t_protocol t) = false) by (destruct P as [->| ->]; split; reflexivity).
  assert (X : exists o, cisco_protocols c ps = o /\ (o = [Some (PName "tcp"); Some (PName "udp")] \/ o = [Some (PName "udp"); Some (PName "tcp")])).
  { destruct P as [P|P]; rewrite P in Eps; vm_compute in Eps; apply ok_inj in Eps; subst ps;
      (eexists; split; [reflexivity|]; unfold cisco_protocols; destruct (c_proto_int c); auto). }
  destruct X as (pcol & Epc & Hpc).
  revert H. unfold cisco_term.
  change (t_protocol (set_protocol ["tcp"] t)) with ["tcp"].
  change (t_protocol (set_protocol ["udp"] (set_option [] t))) with ["udp"].
  rewrite Eps, (one_protocol "tcp" (or_introl eq_refl)), (one_protocol "udp" (or_intror eq_refl)). cbn [bind].
  change (t_platform (set_protocol ["tcp"] t)) with (t_platform t).
  change (t_platform (set_protocol ["udp"] (set_option [] t))) with (t_platform t).
  change (t_platform_exclude (set_protocol ["tcp"] t)) with (t_platform_exclude t).
  change (t_platform_exclude (set_protocol ["udp"] (set_option [] t))) with (t_platform_exclude t).
  destruct (some (t_platform t) && negb (str_in (c_platform c) (t_platform t)) || some (t_platform_exclude t) && str_in (c_platform c) (t_platform_exclude t)).
  { intros H. apply ok_inj in H. subst lines. exists [], []. split; [reflexivity|]. split; [reflexivity|]. intros l. cbn. tauto. }
  rewrite (proj1 Ni), (proj2 Ni), Epc.
  change (str_in "icmp" ["tcp"]) with false. change (str_in "icmpv6" ["tcp"]) with false.
  change (str_in "icmp" ["udp"]) with false. change (str_in "icmpv6" ["udp"]) with false.
  rewrite !andb_false_r. cbn [orb].
  change (t_verbatim (set_protocol ["tcp"] t)) with (t_verbatim t).
  change (t_verbatim (set_protocol ["udp"] (set_option [] t))) with (t_verbatim t). rewrite Ve. cbn [some].
  change (cisco_remarks c (set_protocol ["tcp"] t)) with (cisco_remarks c t).
  change (cisco_remarks c (set_protocol ["udp"] (set_option [] t))) with (cisco_remarks c t).
  rewrite (col1 c "tcp" (or_introl eq_refl)), (col1 c "udp" (or_intror eq_refl)).
  change (t_source_address (set_protocol ["tcp"] t)) with (t_source_address t).
  change (t_source_address (set_protocol ["udp"] (set_option [] t))) with (t_source_address t).
  change (t_source_address_exclude (set_protocol ["tcp"] t)) with (t_source_address_exclude t).
  change (t_source_address_exclude (set_protocol ["udp"] (set_option [] t))) with (t_source_address_exclude t).
  change (t_destination_address (set_protocol ["tcp"] t)) with (t_destination_address t).
  change (t_destination_address (set_protocol ["udp"] (set_option [] t))) with (t_destination_address t).
  change (t_destination_address_exclude (set_protocol ["tcp"] t)) with (t_destination_address_exclude t).
  change (t_destination_address_exclude (set_protocol ["udp"] (set_option [] t))) with (t_destination_address_exclude t).
  destruct (cisco_addresses c (t_source_address t) (t_source_address_exclude t)) as [[src|]|]; cbn [bind]; [| |discriminate].
  2:{ intros H. apply ok_inj in H. subst lines. exists [], []. split; [reflexivity|]. split; [reflexivity|]. intros l. cbn. tauto. }
  destruct (cisco_addresses c (t_destination_address t) (t_destination_address_exclude t)) as [[dst|]|]; cbn [bind]; [| |discriminate].
  2:{ intros H. apply ok_inj in H. subst lines. exists [], []. split; [reflexivity|]. split; [reflexivity|]. intros l. cbn. tauto. }
  change (t_icmp_type (set_protocol ["tcp"] t)) with (t_icmp_type t).
  change (t_icmp_type (set_protocol ["udp"] (set_option [] t))) with (t_icmp_type t). rewrite Ti. cbn [some].
  unfold cisco_options.
  change (t_option (set_protocol ["tcp"] t)) with (t_option t).
  change (t_option (set_protocol ["udp"] (set_option [] t))) with (@nil string).
  change (t_action (set_protocol ["tcp"] t)) with (t_action t).
  change (t_action (set_protocol ["udp"] (set_option [] t))) with (t_action t).
  change (t_logging (set_protocol ["tcp"] t)) with (t_logging t).
  change (t_logging (set_protocol ["udp"] (set_option [] t))) with (t_logging t).
  change (t_dscp_match (set_protocol ["tcp"] t)) with (t_dscp_match t).
  change (t_dscp_match (set_protocol ["udp"] (set_option [] t))) with (t_dscp_match t).
  change (t_icmp_code (set_protocol ["tcp"] t)) with (t_icmp_code t).
  change (t_icmp_code (set_protocol ["udp"] (set_option [] t))) with (t_icmp_code t).
  change (t_source_port (set_protocol ["tcp"] t)) with (t_source_port t).
  change (t_source_port (set_protocol ["udp"] (set_option [] t))) with (t_source_port t).
  change (t_destination_port (set_protocol ["tcp"] t)) with (t_destination_port t).
  change (t_destination_port (set_protocol ["udp"] (set_option [] t))) with (t_destination_port t).
  change (t_next_ip (set_protocol ["tcp"] t)) with (t_next_ip t).
  change (t_next_ip (set_protocol ["udp"] (set_option [] t))) with (t_next_ip t).
  assert (Sa : some (t_action t) = true) by (destruct (t_action t); [congruence|reflexivity]).
  rewrite Sa. cbn [negb]. rewrite !andb_false_r. cbn [andb bind].
  assert (P1 : existsb (is_num 6) pcol || existsb (is_name "tcp") pcol = true) by (destruct Hpc as [->| ->]; reflexivity).
  assert (P2 : existsb (is_name "ip") pcol = false) by (destruct Hpc as [->| ->]; reflexivity).
  rewrite P1, P2, Eb.
  change (existsb (is_num 6) [Some (PName "tcp")] || existsb (is_name "tcp") [Some (PName "tcp")]) with true.
  change (existsb (is_num 6) [Some (PName "udp")] || existsb (is_name "tcp") [Some (PName "udp")]) with false.
  change (existsb (is_name "ip") [Some (PName "tcp")]) with false.
  change (existsb (is_name "ip") [Some (PName "udp")]) with false.
  cbn [andb orb app].
  destruct (t_action t) as [|act acts]; [congruence|].
  set (logs := if some (t_logging t) then ["log"] else []).
  set (dscp := match t_dscp_match t with [] => Ok [] | [d] => Ok [append "dscp " d] | _ => Raise (Exn "ExtendedACLTermError") end).
  set (action := match assoc act cisco_actions with Some s => s | None => "" end).
  assert (Ed : forall o, (match t_dscp_match t with
    | [] => Ok (o, Some action) | [d] => Ok (o ++ [append "dscp " d], Some action) | _ => Raise (Exn "ExtendedACLTermError") end)
    = match dscp with Ok ds => Ok (o ++ ds, Some action) | Raise e => Raise e end).
  { intros o. unfold dscp. destruct (t_dscp_match t) as [|d [|]]; [rewrite app_nil_r| |]; reflexivity. }
  rewrite !Ed. destruct dscp as [ds|e] eqn:Eds; [|discriminate]. cbn [bind].
  destruct (mapM get_ip_string src) as [sas|e]; cbn [bind]; [|discriminate].
  destruct (mapM get_ip_string dst) as [das|e]; cbn [bind]; [|discriminate].
  intros H. apply ok_inj in H. subst lines. eexists. eexists. split; [reflexivity|]. split; [reflexivity|].
  intros l. rewrite !app_comm_cons, !in_app_iff, !cisco_lines_in.
  set (codes := if some (t_icmp_code t) then _ else _).
  assert (Nd : ~ In "established" (logs ++ ds)).
  { intros I. apply in_app_or in I. destruct I as [I|I].
    - unfold logs in I. destruct (some (t_logging t)); [destruct I as [I|[]]; discriminate I|destruct I].
    - unfold dscp in Eds. destruct (t_dscp_match t) as [|d [|]]; [| |discriminate Eds]; apply ok_inj in Eds; subst ds; [destruct I|].
      destruct I as [I|[]]. discriminate I. }
  assert (Ft : forall o, fix_options (Some (PName "tcp")) o = o) by reflexivity.
  assert (Fu : fix_options (Some (PName "udp")) ("established" :: logs ++ ds) = logs ++ ds) by reflexivity.
  assert (Fu' : fix_options (Some (PName "udp")) (logs ++ ds) = logs ++ ds).
  { unfold fix_options. rewrite (proj2 (str_in_false _ _) Nd), andb_false_r. reflexivity. }
  assert (Ip : forall q, In q pcol <-> q = Some (PName "tcp") \/ q = Some (PName "udp")).
  { intros q. destruct Hpc as [->| ->]; cbn; split; intros [I|I]; auto; try destruct I as [I|[]]; auto. }
  split.
  - intros [I|(sa & da & sp & dp & q & ty & co & I1 & I2 & I3 & I4 & I5 & I6 & I7 & ->)]; [left; left; exact I|].
    apply Ip in I5. destruct I5 as [->| ->].
    + left. right. exists sa, da, sp, dp, (Some (PName "tcp")), ty, co.
      repeat (split; [first [assumption|left; reflexivity]|]). reflexivity.
    + right. right. exists sa, da, sp, dp, (Some (PName "udp")), ty, co.
      repeat (split; [first [assumption|left; reflexivity]|]). cbn [app] in *. rewrite Fu, Fu'. reflexivity.
  - intros [[I|(sa & da & sp & dp & q & ty & co & I1 & I2 & I3 & I4 & [<-|[]] & I6 & I7 & ->)]|[I|(sa & da & sp & dp & q & ty & co & I1 & I2 & I3 & I4 & [<-|[]] & I6 & I7 & ->)]].
    + left; exact I.
    + right. exists sa, da, sp, dp, (Some (PName "tcp")), ty, co. repeat (split; [first [assumption|apply Ip; auto]|]). reflexivity.
    + left; exact I.
    + right. exists sa, da, sp, dp, (Some (PName "udp")), ty, co. repeat (split; [first [assumption|apply Ip; auto]|]).
      cbn [app] in *. rewrite Fu, Fu'. reflexivity.
Qed.

(** TCP packets are held to the option and UDP packets are not. *)
Theorem cisco_established_exact c t p lines a rest : tcp_udp (t_protocol t) ->
  (In "established" (t_option t) \/ In "tcp-established" (t_option t)) -> t_icmp_type t = [] ->
  cisco_term_ok c (set_protocol ["tcp"] t) -> cisco_packet c t p -> cisco_term c t = Ok lines -> t_action t = a :: rest ->
  ((exists line, In line lines /\ line_matches (c_ver c) (verdict a) line p) <->
   term_matches (set_protocol ["tcp"] t) p \/ term_matches (set_protocol ["udp"] (set_option [] t)) p).
Proof.
  intros P E Ti Ok1 Pk H Ea.
  assert (Ok2 : cisco_term_ok c (set_protocol ["udp"] (set_option [] t))).
  { destruct Ok1. constructor; try assumption.
    - intros q [<-|[]]. split; [apply str_in_iff; vm_compute; reflexivity|discriminate].
    - intros _ [I|[]]. discriminate I.
    - split; intros _ [I|[]]; discriminate I.
    - intros o []. }
  destruct (cisco_tcp_udp c t lines P E Ti) as (lt & lu & Et & Eu & Il); [|rewrite Ea; discriminate|exact H|].
  { destruct Ok1 as [_ _ O _ _ _ _ _ _ _ _ _ _]. unfold only_cisco_conditions in O. apply O. }
  assert (Pk1 : cisco_packet c (set_protocol ["tcp"] t) p) by (destruct Pk; constructor; assumption).
  assert (Pk2 : cisco_packet c (set_protocol ["udp"] (set_option [] t)) p) by (destruct Pk; constructor; assumption).
  destruct (cisco_term_exact _ _ _ _ a rest Ok1 Pk1 Et Ea) as (X1 & _).
  destruct (cisco_term_exact _ _ _ _ a rest Ok2 Pk2 Eu Ea) as (X2 & _).
  rewrite <- X1, <- X2. split.
  - intros (l & I & M). apply Il in I. destruct I as [I|I]; [left|right]; exists l; auto.
  - intros [(l & I & M)|(l & I & M)]; exists l; (split; [apply Il; auto|exact M]).
Qed.

(** ** Expiration *)
Lemma valid_on_expired today t : valid_on today t = negb (expired today t).
Proof. unfold valid_on, expired. destruct (t_expiration t); [lia|reflexivity]. Qed.
Lemma filter_valid today ts : filter (valid_on today) ts = filter (fun t => negb (expired today t)) ts.
Proof. apply filter_ext. apply valid_on_expired. Qed.

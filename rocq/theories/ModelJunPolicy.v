(** Whole Juniper configurations (juniper.py:968-1108): all headers of a policy, and the term objects that
    the two filters of a header of type mixed share.  Simplified: the second filter of such a header repeats the
    comment that names the owner (juniper.py:235-236), which is left out; and an option inactive that is
    given twice is still there, once, in the terms of the first filter.  Not modelled: log messages. *)
From Verif Require Export ModelJuniper ModelAsa.
Local Open Scope string_scope.
Local Open Scope list_scope.
Local Open Scope Z_scope.

(** ** Terms are objects *)

(** A term with what the generator writes to it: the mark inactive (juniper.py:1035-1038) and the protocols
    as Term.__init__ and __str__ leave them (juniper.py:175-196, 215-234). *)
Record jobj := mkJobj { jo_term : term; jo_inactive : bool; jo_protocol : list pval }.
(** A term as it comes from the policy (juniper.py:1029) *)
Definition jun_object (t : term) : jobj := mkJobj t false (map PName (t_protocol t)).
(** juniper.py:1027-1063: the loop over the terms for one type of filter: the objects afterwards, and for
    each the term that is rendered.  A copy that FixHighPorts makes is of a term with only tcp and udp,
    which no step changes; so copies do not have protocols of their own here.  Protocols that have become
    numbers are no names that FixHighPorts knows. *)
Fixpoint jun_pass (c : juniper_cfg) (today : Z) (seen : list string) (os : list jobj) : res (list jobj * list (option term)) :=
  match os with
  | [] => Ok ([], [])
  | o :: rest =>
      let t := jo_term o in
      if match t_restrict_address_family t with
         | Some f => negb (is_empty f) && negb (String.eqb f (jc_type c))
         | None => false end
      then let! (os, l) := jun_pass c today seen rest in Ok (o :: os, None :: l)
      else
        let inactive := jo_inactive o || str_in "inactive" (t_option t) in
        let! n := fix_term_length abbreviation_table (t_name t) false false cisco_name_limit in
        let t := set_name n (set_option (remove_first "inactive" (t_option t)) t) in
        if str_in n seen then Raise (Exn "JuniperDuplicateTermError")
        else
          let! t' := fix_high_ports juniper_gen (set_protocol (map pval_text (jo_protocol o)) t) (jc_type c) false in
          let t' := set_protocol (t_protocol t) t' in
          if expired today t' then let! (os, l) := jun_pass c today (n :: seen) rest in Ok (mkJobj t inactive (jo_protocol o) :: os, None :: l)
          else if str_in "is-fragment" (t_option t') && String.eqb (jc_type c) "inet6" then Raise (Exn "JuniperFragmentInV6Error")
          else
            let! ps := juniper_init (jo_protocol o) in
            let! (os, l) := jun_pass c today (n :: seen) rest in
            Ok (mkJobj t inactive ps :: os, Some t' :: l)
  end.
(** juniper.py:1097-1100: the texts of the terms of one filter, and the objects afterwards *)
Fixpoint jun_render (c : juniper_cfg) (os : list jobj) (l : list (option term)) : res (list string * list jobj) :=
  match os, l with
  | o :: os, Some t :: l =>
      let! (lines, ps) := juniper_term c t (jo_inactive o) (jo_protocol o) in
      let! (more, os) := jun_render c os l in
      Ok (lines ++ more, mkJobj (jo_term o) (jo_inactive o) ps :: os)
  | o :: os, None :: l => let! (more, os) := jun_render c os l in Ok (more, o :: os)
  | _, _ => Ok ([], os)
  end.

(** ** Headers *)

(** What a header asks for besides the type: interface-specific and enhanced-mode. *)
Record jun_header := mkJunHeader { jh_name : string; jh_comment : list string; jh_specific : bool; jh_enhanced : bool }.
(** juniper.py:997-1009: the word that is taken for the type, after options that may be anywhere *)
Definition jun_kind (all : list string) : string :=
  let take w l := if str_in w (tl all) then remove_first w l else l in
  match take "filter_enhanced_mode" (take "enable_dsmo" (take "not-interface-specific" all)) with
  | _ :: k :: _ => k
  | _ => "inet"
  end.
(** juniper.py:1011-1025: the types of filters, and what is added to the name *)
Definition jun_types (kind : string) : list (string * string) :=
  if String.eqb kind "mixed" then [("inet", "4"); ("inet6", "6")] else [(kind, "")].
(** juniper.py:1017-1066: one pass over the terms for each type *)
Fixpoint jun_passes (today : Z) (cs : list (juniper_cfg * string)) (os : list jobj) : res (list jobj * list (juniper_cfg * string * list (option term))) :=
  match cs with
  | [] => Ok (os, [])
  | (c, suffix) :: rest =>
      let! (os, l) := jun_pass c today [] os in
      let! (os, more) := jun_passes today rest os in
      Ok (os, (c, suffix, l) :: more)
  end.
(** juniper.py:970-1066 _TranslatePolicy for one header; the name of a header without options is None,
    to which nothing can be added *)
Definition jun_translate (today : Z) (h : asa_header) (all : list string) (terms : list term)
  : res (jun_header * (list jobj * list (juniper_cfg * string * list (option term)))) :=
  let opts := tl all in
  let! r := jun_passes today (map (fun x => (mkJuniper (fst x) (str_in "enable_dsmo" opts) (str_in "noverbose" opts), snd x)) (jun_types (jun_kind all)))
              (map jun_object terms) in
  match all with
  | [] => Raise (Exn "TypeError")
  | name :: _ => Ok (mkJunHeader name (snd h) (negb (str_in "not-interface-specific" opts)) (str_in "filter_enhanced_mode" opts), r)
  end.

(** ** The text *)

(** juniper.py:1073-1104: one filter, behind what is there already *)
Definition jun_filter (h : jun_header) (c : juniper_cfg) (suffix : string) (cfg : config) (os : list jobj) (l : list (option term)) : res (config * list jobj) :=
  let! cfg := append_lines 0 cfg
    (["firewall {"; append "family " (append (jc_type c) " {"); "/*"]%string
     ++ add_repository_tags "** " true true true false ++ ["**"%string]
     ++ flat_map (fun comment => map (fun l => append "** " l) (split_char newline comment)) (jh_comment h)
     ++ ["*/"; append "replace: filter " (append (append (jh_name h) suffix) " {")]%string
     ++ (if jh_specific h then ["interface-specific;"%string] else [])
     ++ (if jh_enhanced h then ["enhanced-mode;"%string] else [])) in
  let! (lines, os) := jun_render c os l in
  let! cfg := append_lines 0 (fst cfg, rev lines ++ snd cfg) ["}"; "}"; "}"]%string in
  Ok (cfg, os).
(** juniper.py:1071-1104: the filters of a header *)
Fixpoint jun_filters (h : jun_header) (cfg : config) (os : list jobj) (fs : list (juniper_cfg * string * list (option term))) : res config :=
  match fs with
  | [] => Ok cfg
  | (c, suffix, l) :: rest =>
      let! (cfg, os) := jun_filter h c suffix cfg os l in
      jun_filters h cfg os rest
  end.
(** juniper.py:1071-1104: all headers *)
Fixpoint jun_headers (cfg : config) (l : list (jun_header * (list jobj * list (juniper_cfg * string * list (option term))))) : res config :=
  match l with
  | [] => Ok cfg
  | (h, (os, fs)) :: rest => let! cfg := jun_filters h cfg os fs in jun_headers cfg rest
  end.
(** juniper.py:912-968 _BuildTokens, without the attributes the model of terms does not carry *)
Definition jun_tokens : tokens := mkTokens
  (supported default_tokens ++ ["address"; "restrict_address_family"; "counter"; "decapsulate"; "destination_prefix"; "destination_prefix_except";
     "dscp_except"; "dscp_match"; "encapsulate"; "ether_type"; "filter_term"; "forwarding_class"; "forwarding_class_except"; "fragment_offset";
     "hop_limit"; "icmp_code"; "logging"; "next_ip"; "owner"; "packet_length"; "port"; "port_mirror"; "precedence"; "protocol_except";
     "routing_instance"; "source_prefix"; "source_prefix_except"; "target_resources"; "traffic_type"; "ttl"])
  (("option", ["established"; "first-fragment"; "is-fragment"; ".*"; "sample"; "tcp-established"; "tcp-initial"; "inactive"])
   :: filter (fun e => negb (String.eqb (fst e) "option")) (sub_tokens default_tokens)).
(** aclgenerator.py:269-322, juniper.py:970-1108: str(Juniper(policy)), the lines, for a policy given by its
    headers and terms *)
Definition jun_text (today : Z) (fs : list (asa_header * list term)) : res (list string) :=
  let! _ := check_tokens "juniper" jun_tokens (map (fun f => (match fst (fst f) with Some _ => ["juniper"] | None => [] end, snd f)) fs) in
  let! l := mapM (fun f => match fst (fst f) with
                           | Some all => let! x := jun_translate today (fst f) all (snd f) in Ok [x]
                           | None => Ok []
                           end) fs in
  let! cfg := jun_headers (0, []) (concat l) in
  config_lines 0 cfg.

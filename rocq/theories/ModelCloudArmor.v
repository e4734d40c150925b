(** Cloud Armor security policies (cloudarmor.py). *)
From Verif Require Export ModelOpenConfig.
Local Open Scope string_scope.
Local Open Scope list_scope.
Local Open Scope Z_scope.

(** cloudarmor.py:73-81 *)
Definition ca_description (verbose : bool) (t : term) : option string :=
  if some (t_comment t) && verbose then
    let raw := join " " (t_comment t) in
    Some (if 64 <? slen raw then slice_to raw 64 else raw)
  else None.
(** cloudarmor.py:35-36 *)
Definition ca_actions : list (string * string) := [("accept", "allow"); ("deny", "deny(404)")].
(** cloudarmor.py:83-84, 98-103, 113-116, 128-135: a finished rule *)
Definition ca_rule (description : option string) (action : string) (ranges : list string) (priority : Z) : json :=
  JDict (opt_entry "description" JStr description
         ++ [("action", JStr action); ("preview", JBool false);
             ("match", JDict [("versionedExpr", JStr "SRC_IPS_V1"); ("config", JDict [("srcIpRanges", JList (map JStr ranges))])]);
             ("priority", JNum priority)]).
(** cloudarmor.py:122-126: the description of the i-th of several rules *)
Definition ca_part (description : option string) (count i : Z) : string :=
  let suffix := append " [" (append (dec (i + 1)) (append "/" (append (dec count) "]"))) in
  append (slice_to (match description with Some d => d | None => "" end) (64 - slen suffix)) suffix.
(** cloudarmor.py:120-136 *)
Fixpoint ca_split (description : option string) (action : string) (count i k : Z) (chunks : list (list net)) : list json :=
  match chunks with
  | [] => []
  | c :: rest =>
      let d := if 1 <? count then Some (ca_part description count i) else description in
      ca_rule d action (map prefixlen_text c) (k + i) :: ca_split description action count (i + 1) k rest
  end.
(** cloudarmor.py:86-96 *)
Definition ca_sources (family : string) (t : term) : res (list net) :=
  let l := t_source_address t in
  if String.eqb family "inet" then Ok (address_of_version l (Some V4))
  else if String.eqb family "inet6" then Ok (address_of_version l (Some V6))
  else if String.eqb family "mixed" then Ok (address_of_version l (Some V4) ++ address_of_version l (Some V6))
  else Raise (Exn "UnsupportedFilterTypeError").
(** cloudarmor.py:48-144 ConvertToDict *)
Definition ca_term (family : string) (verbose : bool) (k : Z) (t : term) : res (list json) :=
  let d := ca_description verbose t in
  match t_action t with
  | [] => Raise (Exn "IndexError")
  | act :: _ =>
      match assoc act ca_actions with
      | None => Raise (Exn "KeyError")
      | Some action =>
          let! saddrs := ca_sources family t in
          match chunks (List.length saddrs) 5 saddrs with
          | [] => Ok [ca_rule d action ["*"] k]
          | cs => Ok (ca_split d action (Z.of_nat (List.length cs)) 0 k cs)
          end
      end
  end.
(** cloudarmor.py:223-250: [k] is counter, [done] are the rules made so far *)
Fixpoint ca_terms (family : string) (verbose : bool) (k : Z) (done : list json) (ts : list term) : res (list json) :=
  match ts with
  | [] => Ok done
  | t :: rest =>
      let! rules := ca_term family verbose k t in
      let done := done ++ rules in
      if 200 <? Z.of_nat (List.length done) then Raise (Exn "ExceededMaxTermsError")
      else ca_terms family verbose (k + Z.of_nat (List.length rules)) done rest
  end.
(** cloudarmor.py:204-219: the family of a header *)
Definition ca_family (options : list string) : res string :=
  match remove_first "noverbose" options with
  | [] => Ok "inet"
  | f :: _ => if str_in f ["inet"; "inet6"; "mixed"] then Ok f else Raise (Exn "UnsupportedFilterTypeError")
  end.
(** cloudarmor.py:201-250; a header is its options for cloudarmor with its terms *)
Fixpoint ca_filters (done : list json) (fs : list (list string * list term)) : res (list json) :=
  match fs with
  | [] => Ok done
  | (options, terms) :: rest =>
      let! family := ca_family options in
      let! done := ca_terms family (negb (str_in "noverbose" options)) 1 done terms in
      ca_filters done rest
  end.
(** cloudarmor.py:161-180 *)
Definition ca_tokens : tokens := mkTokens
  (filter (fun s => negb (str_in s ["destination_address"; "destination_address_exclude"; "destination_port"; "expiration"; "icmp_type"; "stateless_reply";
     "option"; "protocol"; "platform"; "platform_exclude"; "source_address_exclude"; "source_port"; "verbatim"])) (supported default_tokens))
  [("action", ["accept"; "deny"])].
(** cloudarmor.py:182-258: the list that is written as JSON *)
Definition ca_policy (fs : list (list string * list term)) : res (list json) :=
  let! _ := check_tokens "cloudarmor" ca_tokens (map (fun f => (["cloudarmor"], snd f)) fs) in
  ca_filters [] fs.

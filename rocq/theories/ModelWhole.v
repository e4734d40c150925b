(** From the text of a policy to a configuration: the filters of a policy that are meant for a
    platform, the check of their keywords, and the translation. *)
From Verif Require Export ModelParse ModelNft ModelIptables ModelPcap.
Local Open Scope string_scope.
Local Open Scope list_scope.
Local Open Scope Z_scope.

(** nftables.py:701-703, iptables.py:705-708, pcap.py:379-383: the filters whose header names
    the platform, with its options (policy.py:1830-1847) and comments.  A filter without any
    header has no platforms. *)
Fixpoint for_platform (platform : string) (pol : policy) : res (list (list string * list string * list term)) :=
  match pol with
  | [] => Ok []
  | (None, _) :: _ => Raise (Exn "AttributeError")
  | (Some h, ts) :: rest =>
      let! r := for_platform platform rest in
      Ok (if str_in platform (platforms h) then (filter_options h platform, h_comment h, map fst ts) :: r else r)
  end.
(** aclgenerator.py:269-322; simplified: the attributes that only generators outside this model
    use (the record extras) are not looked at *)
Definition checked (platform : string) (k : tokens) (fs : list (list string * list string * list term)) : res unit :=
  check_tokens platform k (map (fun f => ([platform], snd f)) fs).

(** nftables.py:631-679 *)
Definition nft_tokens : tokens := mkTokens
  ["action"; "comment"; "destination_address"; "destination_address_exclude"; "destination_port"; "expiration";
   "icmp_type"; "name"; "option"; "protocol"; "platform"; "platform_exclude"; "source_interface"; "source_address";
   "source_address_exclude"; "source_port"; "destination_interface"; "translated"; "stateless_reply"]
  [("option", ["established"; "tcp-established"]); ("action", ["accept"; "deny"; "reject"]);
   ("icmp_type", map fst icmp_type4 ++ map fst icmp_type6)].
(** nftables.py:701-712: one filter *)
Definition nft_filter_of (f : list string * list string * list term) : nft_header * list term :=
  (mkNftHeader (fst (fst f)) (snd (fst f)), snd f).
(** nftables.py:681-994 after the checks of aclgenerator.py:269-322 *)
Definition nft_of (today : Z) (pol : policy) : res (list string) :=
  let! fs := for_platform "nftables" pol in
  let! _ := checked "nftables" nft_tokens fs in
  nft_policy today (map nft_filter_of fs).

(** iptables.py:646-683 *)
Definition ipt_tokens : tokens := mkTokens
  (supported default_tokens ++
   ["counter"; "destination_interface"; "destination_prefix"; "fragment_offset"; "icmp_code"; "logging"; "log_limit";
    "owner"; "packet_length"; "routing_instance"; "source_interface"; "source_prefix"])
  [("option", ["established"; "first-fragment"; "initial"; "sample"; "tcp-established"; "tcp-initial"; "syn"; "ack";
               "fin"; "rst"; "urg"; "psh"; "all"; "none"]);
   ("action", ["accept"; "deny"; "next"; "reject"; "reject-with-tcp-rst"]);
   ("icmp_type", map fst icmp_type4 ++ map fst icmp_type6)].
(** iptables.py:707-708: the first option is the name of the filter.  Simplified: without one
    the name is None, which the first term rejects (iptables.py:107). *)
Definition ipt_filter_of (f : list string * list string * list term) : res (ipt_header * list term) :=
  match fst (fst f) with
  | [] => Raise (Exn "TypeError")
  | name :: options => Ok (mkIptHeader name options (snd (fst f)), snd f)
  end.
(** iptables.py:692-848 after the checks of aclgenerator.py:269-322 *)
Definition ipt_of (speedway : bool) (today : Z) (pol : policy) : res (list string) :=
  let platform := if speedway then "speedway" else "iptables" in
  let! fs := for_platform platform pol in
  let! _ := checked platform ipt_tokens fs in
  let! fs := mapM ipt_filter_of fs in
  ipt_policy speedway today fs.

(** pcap.py:341-367 *)
Definition pcap_tokens : tokens := mkTokens
  (filter (fun s => negb (String.eqb s "verbatim")) (supported default_tokens ++ ["logging"; "icmp_code"]))
  [("option", ["tcp-established"; "established"; "syn"; "ack"; "fin"; "rst"; "urg"; "psh"; "all"; "none"]);
   ("action", ["accept"; "deny"; "reject"; "next"]);
   ("icmp_type", map fst icmp_type4 ++ map fst icmp_type6)].
(** pcap.py:382-383: the first option is the name of the filter *)
Definition pcap_filter_of (f : list string * list string * list term) : list string * list term :=
  (tl (fst (fst f)), snd f).
(** pcap.py:341-469 after the checks of aclgenerator.py:269-322 *)
Definition pcap_of (invert : bool) (today : Z) (pol : policy) : res string :=
  let! fs := for_platform "pcap" pol in
  let! _ := checked "pcap" pcap_tokens fs in
  pcap_filter invert today (map pcap_filter_of fs).

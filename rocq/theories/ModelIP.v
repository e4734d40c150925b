(** Model of capirca/lib/nacaddr.py, capirca/utils/iputils.py and of the parts of
    Python's [ipaddress] module they call. *)
From Verif Require Export Base PyStr.
Local Open Scope Z_scope.

(** IP version, [ipaddress._version]. *)
Inductive ver := V4 | V6.
(** a.version == b.version (nacaddr.py:55-64) *)
Definition ver_eqb (a b : ver) : bool :=
  match a, b with V4, V4 => true | V6, V6 => true | _, _ => false end.
(** a.version (nacaddr.py:55-64) *)
Definition ver_num (a : ver) : Z := match a with V4 => 4 | V6 => 6 end.

(** [_max_prefixlen] *)
Definition width (v : ver) : Z := match v with V4 => 32 | V6 => 128 end.
(** [_ALL_ONES] = 2**_max_prefixlen - 1 *)
Definition all_ones (v : ver) : Z := 2 ^ width v - 1.

(** nacaddr.py:67-81 (IPv4) and 146-160 (IPv6): a network with its comment
    [text], the token that defines it and the token it was requested through.
    Objects are modelled as values: the in-place update of [text] done by
    AddComment is a new value, and aliasing of one object from two lists is not
    modelled. *)
Record net := mkNet {
  nver : ver;
  naddr : Z;          (* network_address._ip *)
  nlen : Z;           (* prefixlen *)
  ntext : string;
  ntoken : string;
  nptoken : string }.

(** ipaddress: [_make_netmask]/[_ip_int_from_prefix]: ALL_ONES ^ (ALL_ONES >> plen) *)
Definition netmask (n : net) : Z :=
  Z.lxor (all_ones (nver n)) (Z.shiftr (all_ones (nver n)) (nlen n)).
(** ipaddress [hostmask]: netmask ^ ALL_ONES *)
Definition hostmask (n : net) : Z := Z.lxor (netmask n) (all_ones (nver n)).
(** ipaddress [broadcast_address]: network | hostmask *)
Definition broadcast (n : net) : Z := Z.lor (naddr n) (hostmask n).

(** ipaddress [_BaseNetwork.__eq__]: version, network address and netmask. *)
Definition net_eqb (a b : net) : bool :=
  ver_eqb (nver a) (nver b) && (naddr a =? naddr b) && (netmask a =? netmask b).

(** [_get_networks_key] = (version, network_address, netmask), compared
    lexicographically; [key_leb] is [<=] and [key_ltb] is [<].  When the versions
    differ the tuple comparison is decided before any address is compared, so no
    TypeError can occur. *)
Definition key_leb (a b : net) : bool :=
  if ver_num (nver a) =? ver_num (nver b) then
    if naddr a =? naddr b then netmask a <=? netmask b
    else naddr a <? naddr b
  else ver_num (nver a) <? ver_num (nver b).
(** a < b on these keys (nacaddr.py:443) *)
Definition key_ltb (a b : net) : bool :=
  if ver_num (nver a) =? ver_num (nver b) then
    if naddr a =? naddr b then netmask a <? netmask b
    else naddr a <? naddr b
  else ver_num (nver a) <? ver_num (nver b).

(** nacaddr.py:55-64 _is_subnet_of, nacaddr.py:83-93, 162-172 subnet_of / supernet_of:
    False on different versions, else containment of the two ranges. *)
Definition subnet_of (a b : net) : bool :=
  if ver_eqb (nver a) (nver b) then
    (naddr b <=? naddr a) && (broadcast a <=? broadcast b)
  else false.
(** nacaddr.py:89-93 supernet_of, and its copy for IPv6 *)
Definition supernet_of (a b : net) : bool := subnet_of b a.

(** nacaddr.py:102-114, 209-221 AddComment *)
Definition add_comment (n : net) (comment : string) : net :=
  mkNet (nver n) (naddr n) (nlen n)
    (if negb (is_empty (ntext n)) then
       if negb (is_empty comment) && negb (substring_of comment (ntext n))
       then append (ntext n) (append ", " comment)
       else ntext n
     else comment)
    (ntoken n) (nptoken n).

(** nacaddr.py:116-138, 181-203 supernet with prefixlen_diff=1; the constructor sets
    parent_token to the token passed (nacaddr.py:71-73), here self.token.
    ipaddress.supernet: address & (netmask << 1), prefixlen - 1. *)
Definition supernet (n : net) : net :=
  if nlen n =? 0 then n
  else mkNet (nver n) (Z.land (naddr n) (Z.shiftl (netmask n) 1)) (nlen n - 1)
         (ntext n) (ntoken n) (ntoken n).

(** nacaddr.py:227-232 _InNetList *)
Definition in_net_list (adders : list net) (ip : net) : bool :=
  existsb (fun a => subnet_of ip a) adders.
(** nacaddr.py:235-240 IsSuperNet *)
Definition is_super_net (supernets subnets : list net) : bool :=
  forallb (in_net_list supernets) subnets.

(** A network address: [IPv4Address]/[IPv6Address] equality compares version and
    integer (scope ids do not occur in networks). *)
Definition same_address (v1 : ver) (a1 : Z) (v2 : ver) (a2 : Z) : bool :=
  ver_eqb v1 v2 && (a1 =? a2).

(** nacaddr.py:274-293 _SafeToMerge.  [checks] is
    check_addresses.get(address.network_address, []).  Comparing the netmask
    addresses of different families raises TypeError
    (ipaddress._BaseAddress.__lt__); [a <= b] is computed first and [b < c] only
    when it holds. *)
Fixpoint safe_to_merge (address target : net) (checks : list net) : res bool :=
  match checks with
  | [] => Ok true
  | c :: cs =>
      if negb (ver_eqb (nver target) (nver c)) then Raise (Exn "TypeError")
      else if netmask target <=? netmask c then
        if negb (ver_eqb (nver c) (nver address)) then Raise (Exn "TypeError")
        else if netmask c <? netmask address then Ok false
        else safe_to_merge address target cs
      else safe_to_merge address target cs
  end.

(** nacaddr.py:338-345: [addr] can be joined with the preceding [prev]. *)
Definition mergeable (prev addr : net) : bool :=
  ver_eqb (nver prev) (nver addr) && (nlen prev =? nlen addr) &&
  (broadcast prev + 1 =? naddr addr) &&
  (Z.land (Z.shiftl (netmask prev) 1) (naddr prev) =? naddr prev).

(** nacaddr.py:326-351, the [while addr_is_fresh] loop for one address.
    [st] is ret_array reversed (top of the stack first).  Each further round pops
    an element, so the recursion is structural in [st].
    [complements] is the dictionary's content, looked up by network address. *)
Definition checks_for (complements : list net) (addr : net) : list net :=
  filter (fun c => same_address (nver c) (naddr c) (nver addr) (naddr addr)) complements.

(** nacaddr.py:326-351 *)
Fixpoint push (complements : list net) (addr : net) (st : list net) : res (list net) :=
  match st with
  | [] => Ok [addr]
  | prev :: st' =>
      let! safe := safe_to_merge addr prev (checks_for complements addr) in
      if negb safe then Ok (addr :: prev :: st')
      else if supernet_of prev addr then Ok (add_comment prev (ntext addr) :: st')
      else if mergeable prev addr then
        push complements (supernet (add_comment prev (ntext addr))) st'
      else Ok (addr :: prev :: st')
  end.

(** nacaddr.py:323-351: all addresses in turn *)
Fixpoint push_all (complements : list net) (l : list net) (st : list net) : res (list net) :=
  match l with
  | [] => Ok st
  | a :: l' => let! st' := push complements a st in push_all complements l' st'
  end.

(** nacaddr.py:296-353 _CollapseAddrListInternal *)
Definition collapse_internal (addresses complements : list net) : res (list net) :=
  let! st := push_all complements addresses [] in Ok (rev st).

(** nacaddr.py:356-388 CollapseAddrList: complements whose network address is not
    the network address of some input are left out of the dictionary. *)
Definition collapse_addr_list (addresses complement : list net) : res (list net) :=
  let cs := filter (fun c => existsb (fun a =>
              same_address (nver c) (naddr c) (nver a) (naddr a)) addresses) complement in
  collapse_internal (py_sorted key_leb addresses) cs.

(** nacaddr.py:391-393 SortAddrList *)
Definition sort_addr_list (l : list net) : list net := py_sorted key_leb l.

(** ipaddress._count_righthand_zero_bits *)
Definition count_righthand_zero_bits (number bits : Z) : Z :=
  if number =? 0 then bits
  else Z.min bits (bit_length (Z.land (Z.lnot number) (number - 1))).

(** A plain [ipaddress] network wrapped by nacaddr.IP(x): no comment, no token. *)
Definition plain (v : ver) (a p : Z) : net := mkNet v a p "" "" "".

(** ipaddress.summarize_address_range (Python 3 standard library), the
    [while first_int <= last_int] loop, on integers of one family.  The first
    [if first > last: raise ValueError] is in [summarize_range] below. *)
Fixpoint summarize_loop (fuel : nat) (v : ver) (first last : Z) : res (list net) :=
  match fuel with
  | O => Raise OutOfFuel
  | S fuel' =>
      if first <=? last then
        let nbits := Z.min (count_righthand_zero_bits first (width v))
                           (bit_length (last - first + 1) - 1) in
        let n := plain v first (width v - nbits) in
        let first' := first + Z.shiftl 1 nbits in
        if first' - 1 =? all_ones v then Ok [n]
        else let! rest := summarize_loop fuel' v first' last in Ok (n :: rest)
      else Ok []
  end.

(** ipaddress.summarize_address_range, used by iputils.py:6-61 *)
Definition summarize_range (v : ver) (first last : Z) : res (list net) :=
  if last <? first then Raise (Exn "ValueError")
  else summarize_loop (Z.to_nat (2 * width v + 3)) v first last.

(** iputils.py:6-61 exclude_address.  [address_class(i)] raises
    AddressValueError (a ValueError) outside the family's range. *)
Definition mk_address (v : ver) (i : Z) : res Z :=
  if (0 <=? i) && (i <=? all_ones v) then Ok i else Raise (Exn "AddressValueError").

(** iputils.py:6-61 *)
Definition exclude_address (base ex : net) : res (list net) :=
  if negb (ver_eqb (nver base) (nver ex)) then Raise (Exn "TypeError")
  else if negb (subnet_of ex base) then Raise (Exn "ValueError")
  else if net_eqb ex base then Ok []
  else
    let v := nver base in
    if naddr base =? naddr ex then
      let! s := mk_address v (broadcast ex + 1) in
      let! e := mk_address v (broadcast base) in
      summarize_range v s e
    else if broadcast base =? broadcast ex then
      let! s := mk_address v (naddr base) in
      let! e := mk_address v (naddr ex - 1) in
      summarize_range v s e
    else
      let! s1 := mk_address v (naddr base) in
      let! e1 := mk_address v (naddr ex - 1) in
      let! s2 := mk_address v (broadcast ex + 1) in
      let! e2 := mk_address v (broadcast base) in
      let! l1 := summarize_range v s1 e1 in
      let! l2 := summarize_range v s2 e2 in
      Ok (l1 ++ l2).

(** nacaddr.py:396-416 RemoveAddressFromList *)
Fixpoint remove_each (superset : list net) (ex : net) : res (list net) :=
  match superset with
  | [] => Ok []
  | addr :: rest =>
      let! here :=
        if net_eqb ex addr || subnet_of addr ex then Ok []
        else if ver_eqb (nver ex) (nver addr) && subnet_of ex addr
        then exclude_address addr ex
        else Ok [addr] in
      let! tl := remove_each rest ex in
      Ok (here ++ tl)
  end.
(** nacaddr.py:396-416 *)
Definition remove_address_from_list (superset : list net) (ex : net) : res (list net) :=
  let! l := remove_each superset ex in Ok (sort_addr_list l).

(** ipaddress [_BaseNetwork.__contains__] for an address, and [overlaps]. *)
Definition has_address (n : net) (v : ver) (a : Z) : bool :=
  ver_eqb (nver n) v && (naddr n <=? a) && (a <=? broadcast n).
(** _BaseNetwork.overlaps, used at nacaddr.py:439 *)
Definition overlaps (a b : net) : bool :=
  has_address a (nver b) (naddr b) || has_address a (nver b) (broadcast b) ||
  has_address b (nver a) (naddr a) || has_address b (nver a) (broadcast a).

(** nacaddr.py:438-446, the [while superset and excludes] loop.  Both lists are
    kept head-first here (the Python lists are reversed and popped from the end).
    The single Python loop is split at [excludes.pop()]: [exclude_one] runs until
    the current exclude [e] is popped (result [inl (ret, superset)]) or the superset is
    empty (same result with an empty superset).  [ret] is ret_array reversed. *)
Fixpoint exclude_one (fuel : nat) (superset : list net) (e : net) (ret : list net)
  : res (list net * list net) :=
  match superset with
  | [] => Ok (ret, [])
  | s :: rest =>
      match fuel with
      | O => Raise OutOfFuel
      | S fuel' =>
          if overlaps s e then
            let! pieces := remove_address_from_list [s] e in
            exclude_one fuel' (pieces ++ rest) e ret
          else if key_ltb s e then exclude_one fuel' rest e (s :: ret)
          else Ok (ret, s :: rest)
      end
  end.

(** nacaddr.py:438-446 *)
Fixpoint exclude_loop (superset excludes ret : list net) : res (list net * list net) :=
  match excludes with
  | [] => Ok (ret, superset)
  | e :: es =>
      let! (ret', superset') :=
        exclude_one (520 * List.length superset + 1) superset e ret in
      exclude_loop superset' es ret'
  end.

(** [sorted(l)] without a key: _BaseNetwork.__lt__ raises TypeError as soon as two
    networks of different versions are compared, which any comparison sort of a
    list with both versions must do. *)
Definition mixed_versions (l : list net) : bool :=
  existsb (fun n => ver_eqb (nver n) V4) l && existsb (fun n => ver_eqb (nver n) V6) l.
(** sorted(l), used at nacaddr.py:434-450 *)
Definition sorted_nokey (l : list net) : res (list net) :=
  if mixed_versions l then Raise (Exn "TypeError") else Ok (py_sorted key_leb l).

(** [set(l)] for networks: first occurrences under [net_eqb]; the set is sorted at
    once, so its iteration order is immaterial. *)
Fixpoint dedup (l : list net) : list net :=
  match l with
  | [] => []
  | n :: l' => n :: filter (fun m => negb (net_eqb m n)) (dedup l')
  end.

(** nacaddr.py:419-450 AddressListExclude *)
Definition address_list_exclude (superset excludes : list net) (collapse_addrs : bool)
  : res (list net) :=
  if collapse_addrs then
    let! s := collapse_addr_list superset [] in
    let! e := collapse_addr_list excludes [] in
    let! (ret, rest) := exclude_loop s e [] in
    collapse_addr_list (rev ret ++ rev rest) []
  else
    let! s0 := (if mixed_versions superset then Raise (Exn "TypeError")
               else Ok (rev (py_sorted_rev key_leb superset))) in
    let! e0 := (if mixed_versions excludes then Raise (Exn "TypeError")
               else Ok (rev (py_sorted_rev key_leb excludes))) in
    let! (ret, rest) := exclude_loop s0 e0 [] in
    sorted_nokey (dedup (rev ret ++ rev rest)).

(** itertools.groupby on a list: maximal runs of equal keys. *)
Fixpoint group_runs {A} (key : A -> string) (l : list A) : list (list A) :=
  match l with
  | [] => []
  | x :: l' =>
      match group_runs key l' with
      | (y :: g) :: gs =>
          if String.eqb (key x) (key y) then (x :: y :: g) :: gs
          else [x] :: (y :: g) :: gs
      | gs => [x] :: gs
      end
  end.

(** nacaddr.py:256-270: the de-duplication of groups.  [dedup_scan] is the inner
    loop from index k on: [done] are dedup_array[0..k-1] reversed, [todo] the rest.
    After [del dedup_array[k]] the index is still advanced, so the element that
    moved into slot k is skipped (kept).  Result: None when [ip] is covered
    (to_add = False, array as left by the deletions so far), or the new array. *)
Fixpoint dedup_scan (ip : list net) (done todo : list (list net)) {struct todo}
  : bool * list (list net) :=
  match todo with
  | [] => (true, rev done)
  | g :: rest =>
      if is_super_net g ip then (false, rev done ++ g :: rest)
      else if is_super_net ip g then
        match rest with
        | [] => (true, rev done)
        | skipped :: rest' => dedup_scan ip (skipped :: done) rest'
        end
      else dedup_scan ip (g :: done) rest
  end.

(** nacaddr.py:256-270 *)
Fixpoint dedup_groups (groups acc : list (list net)) : list (list net) :=
  match groups with
  | [] => acc
  | ip :: gs =>
      let '(to_add, acc') := dedup_scan ip [] acc in
      dedup_groups gs (if to_add then acc' ++ [ip] else acc')
  end.

(** nacaddr.py:243-271 CollapseAddrListPreserveTokens *)
Definition collapse_preserve_tokens (addresses : list net) : res (list net) :=
  let sorted := py_sorted (fun a b => str_leb (nptoken a) (nptoken b)) addresses in
  let! groups := mapM (fun g => collapse_addr_list g []) (group_runs nptoken sorted) in
  Ok (concat (dedup_groups groups [])).

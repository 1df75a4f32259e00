(** Model of protocol/address.go L13-L61 and of the text of TCP peers in
    transport/tcp_socket.go L92-L117: the text of an address and back.

    The functions of the Go library that the file calls are modelled here as well:
    net.SplitHostPort, net.JoinHostPort, net.ParseIP, IP.String (with the parts of
    net/netip they use), strconv.Itoa, strconv.Atoi, TCPAddr.String.  A text is the list
    of its bytes, an IP the list of its bytes with [[]] for nil. *)

From Verif Require Import Go.
Local Open Scope Z_scope.

(** ** strings *)

(** bytealg.IndexByteString and LastIndexByteString *)
Fixpoint IndexByte (c : Z) (s : list Z) : option nat :=
  match s with
  | [] => None
  | x :: t => if x =? c then Some O else option_map S (IndexByte c t)
  end.
Fixpoint LastIndexByte (c : Z) (s : list Z) : option nat :=
  match s with
  | [] => None
  | x :: t => match LastIndexByte c t with Some n => Some (S n) | None => if x =? c then Some O else None end
  end.
Definition has (c : Z) (s : list Z) : bool := match IndexByte c s with Some _ => true | None => false end.

(** net.SplitHostPort; every error is the same here. *)
Definition SplitHostPort (s : list Z) : option (list Z * list Z) :=
  match LastIndexByte 58 s with
  | None => None
  | Some i =>
      match s with
      | [] => None
      | c0 :: _ =>
          if c0 =? 91 then
            match IndexByte 93 s with
            | None => None
            | Some e =>
                if Nat.eqb (S e) i then
                  if has 91 (skipn 1 s) then None
                  else if has 93 (skipn (S e) s) then None
                  else Some (firstn (e - 1) (skipn 1 s), skipn (S i) s)
                else None
            end
          else if has 58 (firstn i s) then None
          else if has 91 s then None
          else if has 93 s then None
          else Some (firstn i s, skipn (S i) s)
      end
  end.

(** net.JoinHostPort *)
Definition JoinHostPort (host port : list Z) : list Z :=
  if has 58 host then 91 :: host ++ 93 :: 58 :: port else host ++ 58 :: port.

(** ** strconv *)

Fixpoint decimal_digits (fuel : nat) (n : Z) (acc : list Z) : list Z :=
  match fuel with
  | O => acc
  | S f => if n <? 10 then (48 + n) :: acc else decimal_digits f (n / 10) (48 + n mod 10 :: acc)
  end.
(** strconv.Itoa; an int has at most nineteen digits. *)
Definition Itoa (n : Z) : list Z :=
  if n <? 0 then 45 :: decimal_digits 20 (- n) [] else decimal_digits 20 n [].

Fixpoint decimal_value (s : list Z) (acc : Z) : option Z :=
  match s with
  | [] => Some acc
  | c :: t => if (48 <=? c) && (c <=? 57) then decimal_value t (acc * 10 + (c - 48)) else None
  end.
(** strconv.Atoi on 64 bit; a number out of range is an error. *)
Definition Atoi (s : list Z) : option Z :=
  let '(neg, ds) := match s with c :: t => if c =? 45 then (true, t) else if c =? 43 then (false, t) else (false, s) | [] => (false, s) end in
  match ds with
  | [] => None
  | _ =>
      match decimal_value ds 0 with
      | None => None
      | Some v => let n := if neg : bool then - v else v in if (- 2 ^ 63 <=? n) && (n <? 2 ^ 63) then Some n else None
      end
  end.

(** ** net/netip *)

(** appendDecimal of a byte, appendHex of a group of 16 bits: no leading zeros. *)
Definition appendDecimal (x : Z) : list Z :=
  (if 100 <=? x then [48 + x / 100] else []) ++ (if 10 <=? x then [48 + x / 10 mod 10] else []) ++ [48 + x mod 10].
Definition hex_digit (x : Z) : Z := if x <? 10 then 48 + x else 87 + x.
Definition appendHex (x : Z) : list Z :=
  (if 0x1000 <=? x then [hex_digit (x / 4096)] else []) ++
  (if 0x100 <=? x then [hex_digit (x / 256 mod 16)] else []) ++
  (if 0x10 <=? x then [hex_digit (x / 16 mod 16)] else []) ++ [hex_digit (x mod 16)].

(** Addr.string4 *)
Definition text4 (ip : list Z) : list Z :=
  match ip with
  | [a; b; c; d] => appendDecimal a ++ 46 :: appendDecimal b ++ 46 :: appendDecimal c ++ 46 :: appendDecimal d
  | _ => []
  end.

(** The groups of an address of sixteen bytes (Addr.v6u16). *)
Fixpoint groups (ip : list Z) : list Z :=
  match ip with a :: b :: t => (a * 256 + b) :: groups t | _ => [] end.

(** The length of the run of zeros at the head. *)
Fixpoint zeros (gs : list Z) : nat := match gs with g :: t => if g =? 0 then S (zeros t) else O | [] => O end.
(** Addr.appendTo6, the first loop: start and end of the run to be shortened; the
    first of the longest ones of at least two groups. *)
Fixpoint zero_run (gs : list Z) (i : nat) (best : nat * nat) : nat * nat :=
  match gs with
  | [] => best
  | g :: t =>
      let l := zeros gs in
      zero_run t (S i) (if Nat.leb 2 l && Nat.ltb (snd best - fst best) l then (i, (i + l)%nat) else best)
  end.
(** Addr.appendTo6, the second loop. *)
Fixpoint text6_loop (fuel : nat) (gs : list Z) (start stop i : nat) : list Z :=
  match fuel with
  | O => []
  | S f =>
      if Nat.ltb i 8 then
        if Nat.eqb i start then
          58 :: 58 :: (if Nat.leb 8 stop then [] else appendHex (nth stop gs 0) ++ text6_loop f gs start stop (S stop))
        else (if Nat.ltb 0 i then [58] else []) ++ appendHex (nth i gs 0) ++ text6_loop f gs start stop (S i)
      else []
  end.
Definition text6 (ip : list Z) : list Z :=
  let gs := groups ip in
  let '(start, stop) := zero_run gs 0 (255%nat, 255%nat) in text6_loop 8 gs start stop 0.

(** parseIPv4Fields; [first] and [dot] say whether the byte before is missing or a dot. *)
Fixpoint parseIPv4Fields (s : list Z) (first dot : bool) (val pos digLen : Z) (fields : list Z) : option (list Z) :=
  match s with
  | [] => if pos <? 3 then None else Some (fields ++ [val])
  | c :: t =>
      if (48 <=? c) && (c <=? 57) then
        if (digLen =? 1) && (val =? 0) then None
        else
          let val := val * 10 + (c - 48) in
          if 255 <? val then None else parseIPv4Fields t false false val pos (digLen + 1) fields
      else if c =? 46 then
        if first || dot || match t with [] => true | _ => false end then None
        else if pos =? 3 then None
        else parseIPv4Fields t false true 0 (pos + 1) 0 (fields ++ [val])
      else None
  end.
Definition parseIPv4 (s : list Z) : option (list Z) := parseIPv4Fields s true false 0 0 0 [].

Definition hex_value (c : Z) : option Z :=
  if (48 <=? c) && (c <=? 57) then Some (c - 48)
  else if (97 <=? c) && (c <=? 102) then Some (c - 97 + 10)
  else if (65 <=? c) && (c <=? 70) then Some (c - 65 + 10)
  else None.
(** parseIPv6, the digits of a group: their number, the value, the rest. *)
Fixpoint hex_group (s : list Z) (off acc : Z) : option (Z * Z * list Z) :=
  match s with
  | [] => Some (off, acc, [])
  | c :: t =>
      match hex_value c with
      | None => Some (off, acc, s)
      | Some d =>
          let acc := acc * 16 + d in
          if 3 <? off then None else if 65535 <? acc then None else hex_group t (off + 1) acc
      end
  end.
(** The text begins with the byte. *)
Definition begins (c : Z) (s : list Z) : bool := match s with x :: _ => x =? c | [] => false end.
(** parseIPv6, the loop; [ip] are the bytes so far. *)
Fixpoint v6_loop (fuel : nat) (s : list Z) (ip : list Z) (ellipsis : option nat) : option (list Z * list Z * option nat) :=
  match fuel with
  | O => Some (s, ip, ellipsis)
  | S f =>
      match hex_group s 0 0 with
      | None => None
      | Some (off, acc, rest) =>
          if off =? 0 then None
          else if begins 46 rest then
            if match ellipsis with None => negb (Nat.eqb (length ip) 12) | Some _ => false end then None
            else if Nat.ltb 16 (length ip + 4) then None
            else match parseIPv4 s with None => None | Some v4 => Some ([], ip ++ v4, ellipsis) end
          else
            let ip := ip ++ [acc / 256; acc mod 256] in
            match rest with
            | [] => Some ([], ip, ellipsis)
            | _ :: more =>
                if negb (begins 58 rest) then None
                else
                  match more with
                  | [] => None
                  | _ :: more' =>
                      if begins 58 more then
                        match ellipsis with
                        | Some _ => None
                        | None =>
                            match more' with
                            | [] => Some ([], ip, Some (length ip))
                            | _ => v6_loop f more' ip (Some (length ip))
                            end
                        end
                      else v6_loop f more ip ellipsis
                  end
            end
      end
  end.
(** parseIPv6: the address and its zone. *)
Definition parseIPv6 (s : list Z) : option (list Z * list Z) :=
  let '(s, zone, bad) :=
    match IndexByte 37 s with
    | None => (s, [], false)
    | Some i => (firstn i s, skipn (S i) s, match skipn (S i) s with [] => true | _ => false end)
    end in
  if bad : bool then None
  else
    let '(s, ellipsis) := if begins 58 s && begins 58 (skipn 1 s) then (skipn 2 s, Some O) else (s, None) in
    match ellipsis, s with
    | Some _, [] => Some (repeat 0 16, zone)
    | _, _ =>
        match v6_loop 8 s [] ellipsis with
        | None => None
        | Some (rest, ip, ellipsis) =>
            match rest with
            | _ :: _ => None
            | [] =>
                if Nat.ltb (length ip) 16 then
                  match ellipsis with
                  | None => None
                  | Some e => Some (firstn e ip ++ repeat 0 (16 - length ip) ++ skipn e ip, zone)
                  end
                else match ellipsis with Some _ => None | None => Some (ip, zone) end
            end
        end
    end.

(** netip.ParseAddr: the first of the bytes . : % decides. *)
Fixpoint first_mark (s : list Z) : option Z :=
  match s with
  | [] => None
  | c :: t => if (c =? 46) || (c =? 58) || (c =? 37) then Some c else first_mark t
  end.
Definition mapped (v4 : list Z) : list Z := repeat 0 10 ++ [255; 255] ++ v4.
(** net.ParseIP: sixteen bytes, or nil also when there is a zone. *)
Definition ParseIP (s : list Z) : list Z :=
  match first_mark s with
  | None => []
  | Some c =>
      if c =? 46 then match parseIPv4 s with Some v4 => mapped v4 | None => [] end
      else if c =? 58 then match parseIPv6 s with Some (ip, []) => ip | _ => [] end
      else []
  end.

(** IP.To4 *)
Definition To4 (ip : list Z) : option (list Z) :=
  if Nat.eqb (length ip) 4 then Some ip
  else if Nat.eqb (length ip) 16 && forallb (Z.eqb 0) (firstn 10 ip) && (nth 10 ip 0 =? 255) && (nth 11 ip 0 =? 255)
  then Some (skipn 12 ip) else None.
Definition hex_pairs (ip : list Z) : list Z := flat_map (fun b => [hex_digit (b / 16); hex_digit (b mod 16)]) ip.
(** IP.String *)
Definition IP_String (ip : list Z) : list Z :=
  match ip with
  | [] => [60; 110; 105; 108; 62]
  | _ =>
      match To4 ip with
      | Some v4 => text4 v4
      | None => if Nat.eqb (length ip) 16 then text6 ip else 63 :: hex_pairs ip
      end
  end.

(** ** protocol/address.go *)

(** L14-L18; the zone is never set. *)
Record address_text : Type := mkText { at_ip : list Z; at_port : Z }.

(** L41-L56: when the port is wrong the IP has been set already. *)
Definition ParseString (a : address_text) (s : list Z) : address_text * bool :=
  match SplitHostPort s with
  | None => (a, false)
  | Some (host, port) =>
      let a := mkText (ParseIP host) (at_port a) in
      match Atoi port with
      | None => (a, false)
      | Some n => (mkText (at_ip a) n, true)
      end
  end.
(** L21-L38 *)
Definition NewAddressWithString (s : list Z) : option address_text :=
  let '(a, ok) := ParseString (mkText [] 0) s in if ok : bool then Some a else None.
(** L59-L61 *)
Definition Address_String (a : address_text) : list Z := JoinHostPort (IP_String (at_ip a)) (Itoa (at_port a)).

(** TCPAddr.String; a nil IP is the empty text. *)
Definition TCPAddr_String (ip : list Z) (zone : list Z) (port : Z) : list Z :=
  let host := match ip with [] => [] | _ => IP_String ip end in
  match zone with
  | [] => JoinHostPort host (Itoa port)
  | _ => JoinHostPort (host ++ 37 :: zone) (Itoa port)
  end.
(** transport/tcp_socket.go L103-L108: the source of a message read from a peer. *)
Definition tcp_source (ip zone : list Z) (port : Z) : option address_text :=
  NewAddressWithString (TCPAddr_String ip zone port).

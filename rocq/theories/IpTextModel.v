(** Model of the text forms of IP addresses, masks, networks and hosts and of
    socket identifiers.  A str is the list of its code points.

    Simplifications: the text is ASCII as far as "\d" and int() are concerned
    (both also take other Unicode digits), int() has no limit on the number of
    digits, and the strings "1" * n always fit into memory.

    re.search, and the C functions inet_aton, inet_ntoa, inet_pton and
    inet_ntop behind Python's socket module, are not code of the repository:
    they are transcribed here from their implementations (CPython's re, the
    GNU C library) and belong to the trusted base. *)
From Coq Require Import Ascii.
From Verif Require Import Base AddrModel.

Definition text := list Z.
(** an ASCII literal *)
Definition lit (s : string) : text :=
  map (fun c => Z.of_nat (nat_of_ascii c)) (list_ascii_of_string s).

(** Exceptions of the constructors: Ip?AddressFormatError, Ip?MaskFormatError,
    Ip?NetworkFormatError, Ip?HostFormatError, ValueError and OverflowError. *)
Inductive terr := AddrErr | MaskErr | NetErr | HostErr | ValErr | OverErr.
Inductive tres (A : Type) := TOk (a : A) | TErr (e : terr).
Arguments TOk {A} a.
Arguments TErr {A} e.

(** * Regular expressions without unbounded repetition *)
Inductive re :=
| Eps
| Set_ (l : list (Z * Z))  (* a character in one of the ranges *)
| Cat (a b : re)
| Alt (a b : re).

Definition in_set (l : list (Z * Z)) (c : Z) : bool :=
  existsb (fun p => (fst p <=? c) && (c <=? snd p)) l.

(** the part of [s] that is left over satisfies [k] for some way to match *)
Fixpoint rmatch (r : re) (s : text) (k : text -> bool) : bool :=
  match r with
  | Eps => k s
  | Set_ l => match s with c :: s' => if in_set l c then k s' else false | [] => false end
  | Cat a b => rmatch a s (fun s' => rmatch b s' k)
  | Alt a b => if rmatch a s k then true else rmatch b s k
  end.

(** re.search(r, s): some substring matches *)
Fixpoint rsearch (r : re) (s : text) : bool :=
  if rmatch r s (fun _ => true) then true
  else match s with [] => false | _ :: s' => rsearch r s' end.

Definition at_end (s : text) : bool := match s with [] => true | _ => false end.
(** the whole of [s] matches *)
Definition rfull (r : re) (s : text) : bool := rmatch r s at_end.

Definition chr (c : Z) : re := Set_ [(c, c)].
Definition opt (r : re) : re := Alt r Eps.
Fixpoint upto (n : nat) (r : re) : re :=
  match n with O => Eps | S n' => opt (Cat r (upto n' r)) end.
(** r{lo,hi} *)
Fixpoint rep (lo hi : nat) (r : re) : re :=
  match lo with O => upto hi r | S lo' => Cat r (rep lo' (hi - 1) r) end.
Definition digit_re : re := Set_ [(48, 57)].

(** 25[0-5]|(2[0-4]|1{0,1}[0-9]){0,1}[0-9], ip4_address.py:57-58 *)
Definition octet_re : re :=
  Alt (Cat (chr 50) (Cat (chr 53) (Set_ [(48, 53)])))
      (Cat (opt (Alt (Cat (chr 50) (Set_ [(48, 52)])) (Cat (opt (chr 49)) digit_re))) digit_re).
(** IP4_REGEX, ip4_address.py:56-59 *)
Definition IP4_REGEX : re := Cat (rep 3 3 (Cat octet_re (chr 46))) octet_re.

(** [0-9a-fA-F]{1,4}; with a colon after it; with a colon before it *)
Definition h16_re : re := rep 1 4 (Set_ [(48, 57); (97, 102); (65, 70)]).
Definition h16c : re := Cat h16_re (chr 58).
Definition ch16 : re := Cat (chr 58) h16_re.
(** IP6_REGEX, ip6_address.py:56-66 *)
Definition IP6_REGEX : re :=
  Alt (Cat (rep 7 7 h16c) h16_re)
 (Alt (Cat (rep 1 7 h16c) (chr 58))
 (Alt (Cat (rep 1 6 h16c) ch16)
 (Alt (Cat (rep 1 5 h16c) (rep 1 2 ch16))
 (Alt (Cat (rep 1 4 h16c) (rep 1 3 ch16))
 (Alt (Cat (rep 1 3 h16c) (rep 1 4 ch16))
 (Alt (Cat (rep 1 2 h16c) (rep 1 5 ch16))
 (Alt (Cat h16c (rep 1 6 ch16))
      (Cat (chr 58) (Alt (rep 1 7 ch16) (chr 58)))))))))).

(** ^\/\d{1,n}$, ip4_address.py:276 (n = 2), ip6_address.py:272 (n = 3); "$"
    also matches before a final newline *)
Definition prefix_re (n : nat) : re := Cat (chr 47) (Cat (rep 1 n digit_re) (opt (chr 10))).

(** * Numbers *)
Definition is_digit (c : Z) : bool := (48 <=? c) && (c <=? 57).

(** the digits below [b] at the front of [t], and what follows them *)
Fixpoint digits_in (b acc : Z) (t : text) : Z * text :=
  match t with
  | [] => (acc, [])
  | c :: r =>
      match hex_val c with
      | Some d => if d <? b then digits_in b (acc * b + d) r else (acc, t)
      | None => (acc, t)
      end
  end.

(** strtoul(t, &end, 0) for a text starting with a digit *)
Definition strtoul (t : text) : Z * text :=
  match t with
  | 48 :: x :: h :: r =>
      if ((x =? 120) || (x =? 88)) && match hex_val h with Some _ => true | None => false end
      then digits_in 16 0 (h :: r) else digits_in 8 0 t
  | 48 :: _ => digits_in 8 0 t
  | _ => digits_in 10 0 t
  end.

(** isspace() in the C locale, and Py_ISSPACE *)
Definition c_space (c : Z) : bool := ((9 <=? c) && (c <=? 13)) || (c =? 32).

(** inet_aton: [n] more parts may follow the one at the front of [t] *)
Fixpoint aton (n : nat) (word : Z) (t : text) : option Z :=
  match t with
  | c :: _ =>
      if is_digit c then
        let (v, r) := strtoul t in
        if 0xFFFFFFFF <? v then None
        else match r with
             | 46 :: r' =>
                 match n with
                 | O => None
                 | S n' => if 255 <? v then None else aton n' (word + v * 256 ^ Z.of_nat n) r'
                 end
             | [] => if v <? 256 ^ (Z.of_nat n + 1) then Some (word + v) else None
             | e :: _ =>
                 if c_space e && (v <? 256 ^ (Z.of_nat n + 1)) then Some (word + v) else None
             end
      else None
  | [] => None
  end.

(** Python rejects a str with a null character before it calls inet_aton or
    inet_pton *)
Definition has_nul (t : text) : bool := existsb (fun c => c =? 0) t.

(** Ip4Address.__init__ with a str, ip4_address.py:107-115,121 *)
Definition ip4_of_text (t : text) : tres Z :=
  if rsearch IP4_REGEX t
  then if has_nul t then TErr ValErr
       else match aton 3 0 t with Some a => TOk a | None => TErr AddrErr end
  else TErr AddrErr.

(** inet_pton4: octets done, the current one, whether it has a digit *)
Fixpoint pton4 (done : list Z) (cur : Z) (saw : bool) (t : text) : option (list Z) :=
  match t with
  | [] => if saw && (zlen done =? 3) then Some (done ++ [cur]) else None
  | c :: r =>
      if is_digit c then
        if saw && (cur =? 0) then None
        else if 255 <? cur * 10 + (c - 48) then None
        else if negb saw && (zlen done =? 4) then None
        else pton4 done (cur * 10 + (c - 48)) true r
      else if (c =? 46) && saw then
        if zlen done =? 3 then None else pton4 (done ++ [cur]) 0 false r
      else None
  end.

(** the end of inet_pton6: the last group, and the zeros for "::" *)
Definition pton6_end (ws : list Z) (colon : option nat) (xd v : Z) : option (list Z) :=
  if (0 <? xd) && (8 <=? zlen ws) then None
  else
    let ws' := if 0 <? xd then ws ++ [v] else ws in
    match colon with
    | Some p =>
        if zlen ws' =? 8 then None
        else Some (firstn p ws' ++ repeat 0 (8 - length ws') ++ skipn p ws')
    | None => if zlen ws' =? 8 then Some ws' else None
    end.

(** the loop of inet_pton6: [tok] the text from the last colon on, [ws] the
    16-bit words stored, [colon] their number when "::" was seen, [xd] and [v]
    the number and the value of the hexadecimal digits since the last colon *)
Fixpoint pton6_loop (tok : text) (ws : list Z) (colon : option nat) (xd v : Z) (t : text)
  : option (list Z) :=
  match t with
  | [] => pton6_end ws colon xd v
  | c :: r =>
      match hex_val c with
      | Some d =>
          if xd =? 4 then None else pton6_loop tok ws colon (xd + 1) (v * 16 + d) r
      | None =>
          if c =? 58 then
            if xd =? 0 then
              match colon with
              | Some _ => None
              | None => pton6_loop r ws (Some (length ws)) xd v r
              end
            else match r with
                 | [] => None
                 | _ => if 8 <=? zlen ws then None
                        else pton6_loop r (ws ++ [v]) colon 0 0 r
                 end
          else if (c =? 46) && (zlen ws <=? 6) then
            match pton4 [] 0 false tok with
            | Some [a; b; e; f] => pton6_end (ws ++ [a * 256 + b; e * 256 + f]) colon 0 0
            | _ => None
            end
          else None
      end
  end.

(** inet_pton(AF_INET6, t), as its eight 16-bit words *)
Definition pton6 (t : text) : option (list Z) :=
  match t with
  | [] => None
  | 58 :: r =>
      match r with 58 :: _ => pton6_loop r [] None 0 0 r | _ => None end
  | _ => pton6_loop t [] None 0 0 t
  end.

(** the bytes written by inet_pton *)
Definition words_bytes (ws : list Z) : bytes := flat_map (fun w => [w / 256; w mod 256]) ws.

(** Ip6Address.__init__ with a str, ip6_address.py:115-126,132 *)
Definition ip6_of_text (t : text) : tres Z :=
  if rsearch IP6_REGEX t
  then if has_nul t then TErr ValErr
       else match pton6 t with
            | Some ws =>
                match ip6_of_bytes (words_bytes ws) with
                | Ok a => TOk a | Exn _ => TErr AddrErr
                end
            | None => TErr AddrErr
            end
  else TErr AddrErr.

(** sprintf("%x") of a 16-bit word *)
Definition hex_word (w : Z) : text :=
  if w <? 16 then [hex_digit w]
  else if w <? 256 then [hex_digit (w / 16); hex_digit (w mod 16)]
  else if w <? 4096 then
    [hex_digit (w / 256); hex_digit (w / 16 mod 16); hex_digit (w mod 16)]
  else [hex_digit (w / 4096); hex_digit (w / 256 mod 16); hex_digit (w / 16 mod 16);
        hex_digit (w mod 16)].

(** inet_ntop6: the first longest run of zero words, as (base, length).  [i] is
    the index of the first word of [ws], [cur] the run that ends before it. *)
Definition longer (cur best : option (nat * nat)) : option (nat * nat) :=
  match cur, best with
  | Some (b, l), Some (_, l') => if Nat.ltb l' l then cur else best
  | Some _, None => cur
  | None, _ => best
  end.
Fixpoint zero_run (i : nat) (cur best : option (nat * nat)) (ws : list Z) : option (nat * nat) :=
  match ws with
  | [] => longer cur best
  | w :: r =>
      if w =? 0
      then zero_run (S i) (match cur with Some (b, l) => Some (b, S l) | None => Some (i, 1%nat) end)
                    best r
      else zero_run (S i) None (longer cur best) r
  end.
Definition best_run (ws : list Z) : option (nat * nat) :=
  match zero_run 0 None None ws with
  | Some (b, l) => if Nat.ltb l 2 then None else Some (b, l)
  | None => None
  end.

(** inet_ntop6: what the loop prints for word [w] of index [i] *)
Definition ntop6_word (best : option (nat * nat)) (i : nat) (w : Z) : text :=
  let plain := (if Nat.eqb i 0 then [] else [58]) ++ hex_word w in
  match best with
  | Some (b, l) =>
      if Nat.leb b i && Nat.ltb i (b + l) then (if Nat.eqb i b then [58] else []) else plain
  | None => plain
  end.
(** an encapsulated IPv4 address *)
Definition embeds_ip4 (best : option (nat * nat)) (w5 : Z) : bool :=
  match best with
  | Some (O, l) => Nat.eqb l 6 || (Nat.eqb l 5 && (w5 =? 0xFFFF))
  | _ => false
  end.
Fixpoint ntop6_words (best : option (nat * nat)) (i : nat) (ws : list Z) : text :=
  match ws with [] => [] | w :: r => ntop6_word best i w ++ ntop6_words best (S i) r end.
Definition ntop6 (ws : list Z) : text :=
  let best := best_run ws in
  if embeds_ip4 best (nth 5 ws 0)
  then ntop6_words best 0 (firstn 6 ws)
       ++ 58 :: ip4_str (nth 6 ws 0 * 65536 + nth 7 ws 0)
  else ntop6_words best 0 ws
       ++ match best with
          | Some (b, l) => if Nat.eqb (b + l) 8 then [58] else []
          | None => []
          end.

(** 16-bit words of a byte string *)
Fixpoint bytes_words (b : bytes) : list Z :=
  match b with x :: y :: r => x * 256 + y :: bytes_words r | _ => [] end.

(** Ip6Address.__str__, ip6_address.py:134-137 *)
Definition ip6_str (a : Z) : text := ntop6 (bytes_words (ip6_bytes a)).

(** * Equality of addresses.  [v6] tells Ip6Address from Ip4Address. *)
Definition ip_str (v6 : bool) (a : Z) : text := if v6 then ip6_str a else ip4_str a.
(** IpAddress.__repr__, ip_address.py:87-91 *)
Definition ip_repr (v6 : bool) (a : Z) : text :=
  lit "Ip" ++ (if v6 then lit "6" else lit "4") ++ lit "Address('" ++ ip_str v6 a ++ lit "')".
Fixpoint text_eqb (a b : text) : bool :=
  match a, b with
  | [], [] => true
  | x :: a', y :: b' => (x =? y) && text_eqb a' b'
  | _, _ => false
  end.
(** IpAddress.__eq__ on two address objects, ip_address.py:81-85 *)
Definition ip_eq (v6 : bool) (a : Z) (w6 : bool) (b : Z) : bool :=
  text_eqb (ip_repr v6 a) (ip_repr w6 b).

(** * Decimal numbers *)
(** str(n), n >= 0 *)
Fixpoint dec_fuel (f : nat) (n : Z) (acc : text) : text :=
  if n <? 10 then 48 + n :: acc
  else match f with O => acc | S f' => dec_fuel f' (n / 10) (48 + n mod 10 :: acc) end.
Definition dec_str (n : Z) : text := dec_fuel (Z.to_nat (Z.log2 n)) n [].

(** int(t): white space around, a sign, digits with single underscores between
    them; [None] is ValueError *)
Fixpoint cstrip (t : text) : text :=
  match t with [] => [] | c :: r => if c_space c then cstrip r else t end.
Fixpoint uint (saw : bool) (acc : Z) (t : text) : option Z :=
  match t with
  | [] => if saw then Some acc else None
  | c :: r =>
      if is_digit c then uint true (acc * 10 + (c - 48)) r
      else if (c =? 95) && saw then uint false acc r
      else None
  end.
Definition py_int (t : text) : option Z :=
  match rev (cstrip (rev (cstrip t))) with
  | 45 :: r => match uint false 0 r with Some n => Some (- n) | None => None end
  | 43 :: r => uint false 0 r
  | r => uint false 0 r
  end.

(** t.split("/") *)
Fixpoint split_slash (t : text) : list text :=
  match t with
  | [] => [[]]
  | c :: r =>
      if c =? 47 then [] :: split_slash r
      else match split_slash r with
           | p :: q => (c :: p) :: q
           | [] => [[c]]
           end
  end.

(** * Masks from text *)
(** int("1" * k + "0" * (n - k), 2); a negative factor gives the empty text *)
Definition ones_zeros (n k : Z) : Z :=
  bits_val (repeat true (Z.to_nat k) ++ repeat false (Z.to_nat (n - k))).

(** Ip4Mask.__init__ with a str, ip4_address.py:276-288,294 *)
Definition mask4_of_text (t : text) : tres Z :=
  let second :=
    if rsearch IP4_REGEX t
    then if has_nul t then TErr ValErr
         else match aton 3 0 t with
              | Some m => if validate_bits (bits 32 m) then TOk m else TErr MaskErr
              | None => TErr MaskErr
              end
    else TErr MaskErr in
  if rfull (prefix_re 2) t
  then match py_int (tl t) with
       | Some k => if (0 <=? k) && (k <? 33) then TOk (ones_zeros 32 k) else second
       | None => TErr ValErr
       end
  else second.

(** Ip6Mask.__init__ with a str, ip6_address.py:272-276,282 *)
Definition mask6_of_text (t : text) : tres Z :=
  if rfull (prefix_re 3) t
  then match py_int (tl t) with
       | Some k => if (0 <=? k) && (k <? 129) then TOk (ones_zeros 128 k) else TErr MaskErr
       | None => TErr ValErr
       end
  else TErr MaskErr.

(** IpMask.__str__, ip_address.py:249-253 *)
Definition mask_str (m : Z) : text := 47 :: dec_str (mask_len m).

(** * Networks and hosts from text *)
(** "1" * k needs k to fit a C ssize_t, and so does "0" * (n - k) *)
Definition fits_index (k : Z) : bool := (- 2 ^ 63 <=? k) && (k <? 2 ^ 63).

(** Ip4Network.__init__ with a str, ip4_address.py:330-342,349 *)
Definition net4_of_text (t : text) : tres net :=
  match split_slash t with
  | [a; m] =>
      match py_int m with
      | None => TErr NetErr
      | Some k =>
          if negb (fits_index k && fits_index (32 - k)) then TErr OverErr
          else match mask_of_int 32 (ones_zeros 32 k) with
               | Exn _ => TErr NetErr
               | Ok mask =>
                   match ip4_of_text a with
                   | TOk x => match mk_net 32 x mask with Ok w => TOk w | Exn _ => TErr NetErr end
                   | TErr _ => TErr NetErr
                   end
               end
      end
  | _ => TErr NetErr
  end.

(** Ip6Network.__init__ with a str, ip6_address.py:324-333,340 *)
Definition net6_of_text (t : text) : tres net :=
  match split_slash t with
  | [a; m] =>
      match mask6_of_text (47 :: m) with
      | TErr _ => TErr NetErr
      | TOk mask =>
          match ip6_of_text a with
          | TOk x => match mk_net 128 x mask with Ok w => TOk w | Exn _ => TErr NetErr end
          | TErr _ => TErr NetErr
          end
      end
  | _ => TErr NetErr
  end.

(** IpNetwork.__str__, ip_address.py:327-331 *)
Definition net_str (v6 : bool) (w : net) : text :=
  ip_str v6 (n_addr w) ++ lit "/" ++ dec_str (mask_len (n_mask w)).

(** Ip4Host.__init__ and Ip6Host.__init__ with a str, ip4_address.py:402,
    419-426,433, ip6_address.py:402,419-426,433: the exception of the network
    constructor is not caught *)
Definition host_of_text (v6 : bool) (t : text) : tres host :=
  match split_slash t with
  | [a; _] =>
      match (if v6 then ip6_of_text a else ip4_of_text a) with
      | TErr _ => TErr HostErr
      | TOk x =>
          match (if v6 then net6_of_text t else net4_of_text t) with
          | TOk w => TOk {| h_addr := x; h_net := w; h_gw := None |}
          | TErr e => TErr e
          end
      end
  | _ => TErr HostErr
  end.

(** IpHost.__str__, ip_address.py:442-446 *)
Definition host_str (v6 : bool) (h : host) : text :=
  ip_str v6 (h_addr h) ++ lit "/" ++ dec_str (mask_len (n_mask (h_net h))).

(** * Socket identifiers *)
(** Socket.__str__, lib/socket.py:152-159; family and type print as the names
    of their enumeration members, lib/socket.py:85-86,103-104 *)
Definition socket_str (v6 stream : bool) (lip lport rip rport : Z) : text :=
  lit "AF_INET" ++ (if v6 then lit "6" else lit "4") ++ lit "/"
  ++ (if stream then lit "SOCK_STREAM" else lit "SOCK_DGRAM") ++ lit "/"
  ++ ip_str v6 lip ++ lit "/" ++ dec_str lport ++ lit "/"
  ++ ip_str v6 rip ++ lit "/" ++ dec_str rport.

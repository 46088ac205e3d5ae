(** Common vocabulary of the model: Python integers, bytes, slices, struct
    packing, exceptions as values.  No proofs here. *)
From Coq Require Export String ZArith Bool List.
Export ListNotations.
Open Scope Z_scope.
Open Scope list_scope.

(** Uncaught Python exceptions that the modelled code can raise. [OutOfFuel]
    is not a Python exception: it marks the exhaustion of a model's fuel. *)
Inductive exn :=
| IndexError        (* sequence index out of range *)
| StructError       (* struct.error from struct.pack / struct.unpack *)
| AssertionError    (* a failed "assert" statement *)
| KeyError          (* dict.pop / dict[...] on a missing key *)
| ValueError
| FormatError       (* the address classes' *FormatError exceptions *)
| GatewayError      (* Ip4HostGatewayError / Ip6HostGatewayError *)
| OsError (errno : Z) (* OSError raised by socket calls *)
| GaiError          (* gaierror raised by socket calls *)
| ConnRefused       (* ConnectionRefusedError *)
| BrokenPipe        (* BrokenPipeError *)
| SessionError      (* TcpSessionError *)
| RecvTimeout       (* ReceiveTimeout *)
| UnicodeError      (* UnicodeDecodeError *)
| OverflowErr       (* OverflowError raised by socket calls *)
| OutOfFuel.

Inductive res (A : Type) : Type :=
| Ok (a : A)
| Exn (e : exn).
Arguments Ok {A} a.
Arguments Exn {A} e.

Definition rbind {A B} (m : res A) (k : A -> res B) : res B :=
  match m with Ok a => k a | Exn e => Exn e end.

Notation "x <- m ;; k" := (rbind m (fun x => k))
  (at level 61, m at next level, right associativity).
Notation "' p <- m ;; k" := (rbind m (fun p => k))
  (at level 61, p pattern, m at next level, right associativity).

(** Python's [assert c] followed by [k] (asserts are enabled: the code is run
    without -O). *)
Definition assert_ {A} (c : bool) (k : res A) : res A :=
  if c then k else Exn AssertionError.

Definition is_ok {A} (m : res A) : Prop := exists a, m = Ok a.

(** bytes / bytearray / memoryview *)
Definition bytes := list Z.
Definition is_byte (b : Z) : Prop := 0 <= b < 256.
Definition is_byteb (b : Z) : bool := (0 <=? b) && (b <? 256).
Definition wf_bytes (l : bytes) : Prop := Forall is_byte l.
Definition wf_bytesb (l : bytes) : bool := forallb is_byteb l.

(** len(l) *)
Definition zlen {A} (l : list A) : Z := Z.of_nat (length l).

(** l[a:b] for 0 <= a (Python clamps both ends to the length) *)
Definition slice {A} (a b : Z) (l : list A) : list A :=
  firstn (Z.to_nat (b - a)) (skipn (Z.to_nat a) l).

(** l[a:] for 0 <= a *)
Definition slice_from {A} (a : Z) (l : list A) : list A := skipn (Z.to_nat a) l.

(** l[i] for 0 <= i *)
Definition index {A} (l : list A) (i : Z) : res A :=
  match nth_error l (Z.to_nat i) with Some b => Ok b | None => Exn IndexError end.

(** Big-endian value of a byte string: int.from_bytes(l, "big") *)
Definition be (l : bytes) : Z := fold_left (fun acc b => acc * 256 + b) l 0.

(** Big-endian encoding of v on n bytes: the bytes struct.pack writes *)
Fixpoint be_enc (n : nat) (v : Z) : bytes :=
  match n with
  | O => []
  | S n' => be_enc n' (v / 256) ++ [v mod 256]
  end.

(** struct.unpack("!B/H/L/...", l)[0] for a single n-byte field: the buffer
    must have exactly n bytes *)
Definition unpack (n : nat) (l : bytes) : res Z :=
  if Nat.eqb (length l) n then Ok (be l) else Exn StructError.

(** struct.unpack_from("!...", l, off)[0] for a single n-byte field *)
Definition unpack_from (n : nat) (l : bytes) (off : Z) : res Z :=
  if off + Z.of_nat n <=? zlen l
  then Ok (be (slice off (off + Z.of_nat n) l)) else Exn StructError.

(** One field of a struct.pack format: an n-byte unsigned integer or an "Ns"
    byte string whose length is the N of the format *)
Inductive fld := FI (n : nat) (v : Z) | FB (l : bytes).

Fixpoint pack (fs : list fld) : res bytes :=
  match fs with
  | [] => Ok []
  | FI n v :: r =>
      if (0 <=? v) && (v <? 256 ^ Z.of_nat n)
      then t <- pack r ;; Ok (be_enc n v ++ t)
      else Exn StructError
  | FB l :: r => t <- pack r ;; Ok (l ++ t)
  end.

(** overwrite [buf] with [w] starting at [off] *)
Definition overwrite (buf : bytes) (off : nat) (w : bytes) : bytes :=
  firstn off buf ++ w ++ skipn (off + length w) buf.

(** struct.pack_into(fmt, buf, off, ...): raises struct.error when a value is
    out of range or the data does not fit into the buffer; the buffer keeps
    its other bytes *)
Definition pack_into (buf : bytes) (off : Z) (fs : list fld) : res bytes :=
  w <- pack fs ;;
  if off + zlen w <=? zlen buf
  then Ok (overwrite buf (Z.to_nat off) w) else Exn StructError.

(** bool as an integer (Python: True == 1) *)
Definition b2z (b : bool) : Z := if b then 1 else 0.

(** bool(x) for an integer *)
Definition z2b (x : Z) : bool := negb (x =? 0).

(** Result of a parser's integrity/sanity check: Python returns "" (falsy) when
    the check passes and a reason otherwise.  [None] is the empty string. *)
Definition verdict := option string.

(** [check c msg k]: "if c: return msg" followed by k *)
Definition check (c : bool) (msg : string) (k : res verdict) : res verdict :=
  if c then Ok (Some msg) else k.

(** Outcome of running a parser on a frame: [inl reason] is
    packet_rx.parse_failed = reason, [inr p] a successfully parsed packet. *)
Definition parsed (A : Type) := (string + A)%type.

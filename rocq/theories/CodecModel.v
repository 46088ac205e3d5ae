(** Common shape of the packet parsers and assemblers. No proofs here. *)
From Verif Require Import Base.

(** frame[i] *)
Definition u8 (f : bytes) (i : Z) : res Z := index f i.
(** struct.unpack("!H", frame[a:a+2])[0] *)
Definition u16 (f : bytes) (a : Z) : res Z := unpack 2 (slice a (a + 2) f).
(** struct.unpack("!L", frame[a:a+4])[0] *)
Definition u32 (f : bytes) (a : Z) : res Z := unpack 4 (slice a (a + 4) f).

(** The parsers' constructors all run
      packet_rx.parse_failed = (integrity_check() or sanity_check())
    The fields of an accepted packet are properties that read the frame; the
    model reads all of them once the checks have passed. *)
Definition run_parser {A} (integrity sanity : res verdict) (fields : res A) : res (parsed A) :=
  v <- integrity ;;
  match v with
  | Some reason => Ok (inl reason)
  | None =>
      v' <- sanity ;;
      match v' with
      | Some reason => Ok (inl reason)
      | None => p <- fields ;; Ok (inr p)
      end
  end.

(** A carried packet, as seen by the packet that carries it: its length
    (len(carried_packet)) and its assemble(frame, pshdr_sum) method, which fills
    the frame it is given. *)
Record carried := { c_len : Z; c_asm : bytes -> Z -> res bytes }.

(** carried_packet.assemble(frame[hlen:], ps): the callee writes into the tail of
    the caller's buffer *)
Definition asm_tail (b : bytes) (hlen : Z) (c : carried) (ps : Z) : res bytes :=
  t <- c_asm c (slice_from hlen b) ps ;; Ok (slice 0 hlen b ++ t).

(** pytcp/protocols/raw/fpa.py:46-103: RawAssembler *)
Definition raw_asm (data buf : bytes) (_ : Z) : res bytes := pack_into buf 0 [FB data].
Definition raw_carried (data : bytes) : carried := {| c_len := zlen data; c_asm := raw_asm data |}.

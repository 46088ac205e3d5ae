(** The UDP echo service of the examples: examples/udp_echo_service.py, examples/lib/udp_service.py
    and the byte strings of examples/lib/malpi.py.  No proofs here.

    Left out: the text written to the console (click.echo) and the pauses.  The text of the
    sender's address that recvfrom returns and sendto reads again is the address itself
    ([text_for]): C92 is about reading back what was written. *)
From Verif Require Import Base CodecModel AddrModel EtherModel StackModel StackRxModel UdpApiModel.

(** ** bytes.strip(), bytes.lower() and "in" of Python *)
Definition is_space (b : Z) : bool := (b =? 32) || ((9 <=? b) && (b <=? 13)).
Fixpoint lstrip (m : bytes) : bytes :=
  match m with [] => [] | b :: r => if is_space b then lstrip r else m end.
Definition strip (m : bytes) : bytes := rev (lstrip (rev (lstrip m))).
Definition lower1 (b : Z) : Z := if (65 <=? b) && (b <=? 90) then b + 32 else b.
Definition lower (m : bytes) : bytes := map lower1 m.
Fixpoint starts (w m : bytes) : bool :=
  match w, m with
  | [], _ => true
  | x :: w', y :: m' => (x =? y) && starts w' m'
  | _ :: _, [] => false
  end.
(** "w in m" *)
Fixpoint contains (w m : bytes) : bool :=
  starts w m || match m with [] => false | _ :: r => contains w r end.

(** ** examples/lib/malpi.py:38-88; one list per line of the picture *)
(** malpka, malpi.py:38-60 *)
Definition malpka : bytes :=
  [10] ++
  [32; 32; 32; 32; 32; 32; 32; 32; 32; 32; 32; 32; 32; 32; 32; 32; 32; 32; 32; 32; 32; 32; 32; 32; 32; 32; 32; 32; 32; 32; 32; 32; 32; 32; 32; 32; 32; 32; 32; 10] ++
  [32; 32; 32; 32; 32; 32; 32; 32; 32; 32; 32; 32; 32; 32; 32; 32; 32; 32; 32; 32; 32; 32; 32; 32; 32; 32; 32; 32; 32; 32; 32; 32; 32; 32; 32; 32; 32; 32; 32; 10] ++
  [32; 32; 32; 32; 32; 32; 32; 32; 32; 32; 32; 32; 32; 32; 32; 32; 32; 32; 32; 32; 32; 32; 32; 32; 32; 32; 32; 32; 32; 32; 32; 32; 32; 32; 32; 32; 32; 32; 32; 10] ++
  [32; 32; 32; 32; 32; 32; 32; 32; 32; 32; 32; 32; 32; 32; 32; 32; 32; 32; 32; 32; 32; 32; 32; 32; 32; 32; 32; 32; 32; 32; 32; 32; 32; 32; 32; 32; 32; 32; 32; 10] ++
  [32; 32; 32; 32; 32; 32; 32; 32; 32; 32; 32; 32; 32; 32; 32; 46; 61; 34; 61; 46; 32; 32; 32; 32; 32; 32; 32; 32; 32; 32; 32; 32; 32; 32; 32; 32; 32; 32; 32; 10] ++
  [32; 32; 32; 32; 32; 32; 32; 32; 32; 32; 32; 32; 32; 95; 47; 46; 45; 46; 45; 46; 92; 95; 32; 32; 32; 32; 95; 32; 32; 32; 32; 32; 32; 32; 32; 32; 32; 32; 32; 10] ++
  [32; 32; 32; 32; 32; 32; 32; 32; 32; 32; 32; 32; 40; 32; 40; 32; 111; 32; 111; 32; 41; 32; 41; 32; 32; 32; 41; 41; 32; 32; 32; 32; 32; 32; 32; 32; 32; 32; 32; 10] ++
  [32; 32; 32; 32; 32; 32; 32; 32; 32; 32; 32; 32; 32; 124; 47; 32; 32; 34; 32; 32; 92; 124; 32; 32; 32; 47; 47; 32; 32; 32; 32; 32; 32; 32; 32; 32; 32; 32; 32; 10] ++
  [32; 32; 32; 32; 32; 32; 32; 32; 32; 32; 32; 32; 32; 32; 92; 39; 45; 45; 45; 39; 47; 32; 32; 32; 47; 47; 32; 32; 32; 32; 32; 32; 32; 32; 32; 32; 32; 32; 32; 10] ++
  [32; 32; 32; 32; 32; 32; 32; 32; 32; 32; 32; 32; 32; 32; 47; 96; 45; 45; 45; 96; 92; 32; 32; 40; 40; 32; 32; 32; 32; 32; 32; 32; 32; 32; 32; 32; 32; 32; 32; 10] ++
  [32; 32; 32; 32; 32; 32; 32; 32; 32; 32; 32; 32; 32; 47; 32; 47; 95; 44; 95; 92; 32; 92; 32; 32; 92; 92; 32; 32; 32; 32; 32; 32; 32; 32; 32; 32; 32; 32; 32; 10] ++
  [32; 32; 32; 32; 32; 32; 32; 32; 32; 32; 32; 32; 32; 92; 95; 92; 95; 39; 95; 95; 47; 32; 92; 32; 32; 41; 41; 32; 32; 32; 32; 32; 32; 32; 32; 32; 32; 32; 32; 10] ++
  [32; 32; 32; 32; 32; 32; 32; 32; 32; 32; 32; 32; 32; 47; 96; 32; 32; 47; 96; 126; 92; 32; 32; 124; 47; 47; 32; 32; 32; 32; 32; 32; 32; 32; 32; 32; 32; 32; 32; 10] ++
  [32; 32; 32; 32; 32; 32; 32; 32; 32; 32; 32; 32; 47; 32; 32; 32; 47; 32; 32; 32; 32; 92; 32; 32; 47; 32; 32; 32; 32; 32; 32; 32; 32; 32; 32; 32; 32; 32; 32; 10] ++
  [32; 32; 32; 32; 32; 32; 32; 32; 44; 45; 45; 96; 44; 45; 45; 39; 92; 47; 92; 32; 32; 32; 32; 47; 32; 32; 32; 32; 32; 32; 32; 32; 32; 32; 32; 32; 32; 32; 32; 10] ++
  [32; 32; 32; 32; 32; 32; 32; 32; 32; 39; 45; 45; 32; 34; 45; 45; 39; 32; 32; 39; 45; 45; 39; 32; 32; 32; 32; 32; 32; 32; 32; 32; 32; 32; 32; 32; 32; 32; 32; 10] ++
  [32; 32; 32; 32; 32; 32; 32; 32; 32; 32; 32; 32; 32; 32; 32; 32; 32; 32; 32; 32; 32; 32; 32; 32; 32; 32; 32; 32; 32; 32; 32; 32; 32; 32; 32; 32; 32; 32; 32; 10] ++
  [32; 32; 32; 32; 32; 32; 32; 32; 32; 32; 32; 32; 32; 32; 32; 32; 32; 32; 32; 32; 32; 32; 32; 32; 32; 32; 32; 32; 32; 32; 32; 32; 32; 32; 32; 32; 32; 32; 32; 10] ++
  [32; 32; 32; 32; 32; 32; 32; 32; 32; 32; 32; 32; 32; 32; 32; 32; 32; 32; 32; 32; 32; 32; 32; 32; 32; 32; 32; 32; 32; 32; 32; 32; 32; 32; 32; 32; 32; 32; 32; 10] ++
  [32; 32; 32; 32; 32; 32; 32; 32; 32; 32; 32; 32; 32; 32; 32; 32; 32; 32; 32; 32; 32; 32; 32; 32; 32; 32; 32; 32; 32; 32; 32; 32; 32; 32; 32; 32; 32; 32; 32; 10] ++
  [32; 32; 32; 32; 32; 32; 32; 32; 32; 32; 32; 32; 32; 32; 32; 32; 32; 32; 32; 32; 32; 32; 32; 32; 32; 32; 32; 32; 32; 32; 32; 32; 32; 32; 32; 32; 32; 32; 32; 10].
(** malpa, malpi.py:62-83 *)
Definition malpa : bytes :=
  [10] ++
  [95; 95; 95; 95; 95; 95; 65; 65; 65; 65; 95; 95; 95; 95; 95; 95; 95; 95; 95; 95; 95; 95; 95; 95; 95; 65; 65; 65; 65; 95; 95; 95; 95; 95; 95; 10] ++
  [32; 32; 32; 32; 32; 32; 86; 86; 86; 86; 32; 32; 32; 32; 32; 32; 32; 32; 32; 32; 32; 32; 32; 32; 32; 86; 86; 86; 86; 32; 32; 32; 32; 32; 32; 32; 10] ++
  [32; 32; 32; 32; 32; 32; 40; 95; 95; 41; 32; 32; 32; 32; 32; 32; 32; 32; 32; 32; 32; 32; 32; 32; 32; 40; 95; 95; 41; 32; 32; 32; 32; 32; 32; 32; 10] ++
  [32; 32; 32; 32; 32; 32; 32; 92; 32; 92; 32; 32; 32; 32; 32; 32; 32; 32; 32; 32; 32; 32; 32; 32; 32; 47; 32; 47; 32; 32; 32; 32; 32; 32; 32; 32; 10] ++
  [32; 32; 32; 32; 32; 32; 32; 32; 92; 32; 92; 32; 32; 32; 32; 32; 32; 32; 32; 32; 32; 32; 32; 32; 32; 47; 32; 47; 32; 32; 32; 32; 32; 32; 32; 32; 32; 10] ++
  [32; 32; 32; 32; 32; 32; 32; 32; 32; 62; 32; 92; 32; 32; 32; 46; 61; 34; 61; 46; 32; 32; 32; 47; 32; 60; 32; 32; 32; 32; 32; 32; 32; 32; 32; 32; 10] ++
  [32; 32; 32; 32; 32; 32; 32; 32; 32; 32; 62; 32; 92; 32; 47; 32; 32; 32; 32; 32; 92; 32; 47; 32; 60; 32; 32; 32; 32; 32; 32; 32; 32; 32; 32; 32; 10] ++
  [32; 32; 32; 32; 32; 32; 32; 32; 32; 32; 32; 62; 32; 92; 92; 95; 111; 95; 111; 95; 47; 47; 32; 60; 32; 32; 32; 32; 32; 32; 32; 32; 32; 32; 32; 32; 10] ++
  [32; 32; 32; 32; 32; 32; 32; 32; 32; 32; 32; 32; 62; 32; 40; 32; 40; 95; 41; 32; 41; 32; 60; 32; 32; 32; 32; 32; 32; 32; 32; 32; 32; 32; 32; 32; 10] ++
  [32; 32; 32; 32; 32; 32; 32; 32; 32; 32; 32; 32; 32; 62; 124; 32; 32; 32; 32; 32; 124; 60; 32; 32; 32; 32; 32; 32; 32; 32; 32; 32; 32; 32; 32; 32; 10] ++
  [32; 32; 32; 32; 32; 32; 32; 32; 32; 32; 32; 32; 47; 32; 124; 92; 95; 95; 95; 47; 124; 32; 92; 32; 32; 32; 32; 32; 32; 32; 32; 32; 32; 32; 32; 32; 10] ++
  [32; 32; 32; 32; 32; 32; 32; 32; 32; 32; 32; 32; 47; 32; 92; 95; 95; 95; 95; 95; 47; 32; 92; 32; 32; 32; 32; 32; 32; 32; 32; 32; 32; 32; 32; 32; 10] ++
  [32; 32; 32; 32; 32; 32; 32; 32; 32; 32; 32; 32; 47; 32; 32; 32; 32; 32; 32; 32; 32; 32; 92; 32; 32; 32; 32; 32; 32; 32; 32; 32; 32; 32; 32; 32; 10] ++
  [32; 32; 32; 32; 32; 32; 32; 32; 32; 32; 32; 32; 32; 47; 32; 32; 32; 111; 32; 32; 32; 92; 32; 32; 32; 32; 32; 32; 32; 32; 32; 32; 32; 32; 32; 32; 10] ++
  [32; 32; 32; 32; 32; 32; 32; 32; 32; 32; 32; 32; 32; 32; 41; 32; 95; 95; 95; 32; 40; 32; 32; 32; 32; 32; 32; 32; 32; 32; 32; 32; 32; 32; 32; 32; 10] ++
  [32; 32; 32; 32; 32; 32; 32; 32; 32; 32; 32; 32; 32; 47; 32; 47; 32; 32; 32; 92; 32; 92; 32; 32; 32; 32; 32; 32; 32; 32; 32; 32; 32; 32; 32; 32; 10] ++
  [32; 32; 32; 32; 32; 32; 32; 32; 32; 32; 32; 32; 40; 32; 47; 32; 32; 32; 32; 32; 92; 32; 41; 32; 32; 32; 32; 32; 32; 32; 32; 32; 32; 32; 32; 32; 10] ++
  [32; 32; 32; 32; 32; 32; 32; 32; 32; 32; 32; 32; 62; 60; 32; 32; 32; 32; 32; 32; 32; 62; 60; 32; 32; 32; 32; 32; 32; 32; 32; 32; 32; 32; 32; 32; 10] ++
  [32; 32; 32; 32; 32; 32; 32; 32; 32; 32; 32; 47; 47; 47; 92; 32; 32; 32; 32; 32; 47; 92; 92; 92; 32; 32; 32; 32; 32; 32; 32; 32; 32; 32; 32; 32; 10] ++
  [32; 32; 32; 32; 32; 32; 32; 32; 32; 32; 32; 39; 39; 39; 32; 32; 32; 32; 32; 32; 32; 39; 39; 39; 32; 32; 32; 32; 32; 32; 32; 32; 32; 32; 32; 32; 10].
(** bytes.split(b"\n"): the pieces between the newlines *)
Fixpoint split_nl (m : bytes) : list bytes :=
  match m with
  | [] => [[]]
  | b :: r => if b =? 10 then [] :: split_nl r
              else match split_nl r with [] => [[b]] | p :: q => (b :: p) :: q end
  end.
(** malpi, malpi.py:86-88: zip ends with the shorter list *)
Definition malpi : bytes :=
  concat (map (fun p => fst p ++ snd p ++ [10]) (combine (split_nl malpka) (split_nl malpa))).

Definition w_malpka : bytes := [109; 97; 108; 112; 107; 97].
Definition w_malpa : bytes := [109; 97; 108; 112; 97].
Definition w_malpi : bytes := [109; 97; 108; 112; 105].
(** what is sent back, udp_echo_service.py:82-87 *)
Definition echo_message (m : bytes) : bytes :=
  if contains w_malpka (lower (strip m)) then malpka
  else if contains w_malpa (lower (strip m)) then malpa
  else if contains w_malpi (lower (strip m)) then malpi
  else m.

(** the address of the sender as text, given to sendto on a socket of family [f] *)
Definition text_for (f : family) (a : ipaddr) : option Z :=
  match f, a with Fam4, A4 x => Some x | Fam6, A6 x => Some x | _, _ => None end.

(** ** the service thread, udp_echo_service.py:69-94: at the test of "while self._run_thread",
    in recvfrom(), between recvfrom() and sendto(), returned, or ended by an exception (none is
    caught, neither here nor in udp_service.py:124) *)
Inductive echo_at := AtTest | InRecv | Holding (m : bytes) (a : ipaddr) (p : Z) | Returned | Died (e : exn).
(** [e_sock] is the socket made and bound by __thread_service, udp_service.py:91-124; stop()
    clears [e_run], udp_service.py:82-89 *)
Record echo := { e_world : world; e_sock : nat; e_at : echo_at; e_run : bool }.
(** a step of the thread, a call of stop(), or anything else that happens in the stack *)
Inductive echo_ev := EThread (choice : Z) | EStop | EWorld (o : uop).
Definition e_with (w : world) (at' : echo_at) (s : echo) : echo := {| e_world := w; e_sock := e_sock s; e_at := at'; e_run := e_run s |}.
(** recvfrom() has no timeout: it waits for the semaphore *)
Definition echo_waits (s : echo) : bool := u_ready (n_udp (w_node (e_world s)) (e_sock s)) <=? 0.
(** the socket call made by an event, if any *)
Definition echo_op (e : echo_ev) (s : echo) : option uop :=
  match e with
  | EWorld o => Some o
  | EStop => None
  | EThread c =>
      match e_at s with
      | InRecv => if echo_waits s then None else Some (URecvfrom (e_sock s))
      | Holding m a p =>
          Some (USendto c (e_sock s) (echo_message m) (text_for (family_of (u_lip (n_udp (w_node (e_world s)) (e_sock s)))) a) p)
      | _ => None
      end
  end.
Definition echo_do (e : echo_ev) (s : echo) : echo :=
  match e with
  | EWorld o => e_with (fst (uop_do o (e_world s))) (e_at s) s
  | EStop => {| e_world := e_world s; e_sock := e_sock s; e_at := e_at s; e_run := false |}
  | EThread c =>
      match e_at s with
      | AtTest => e_with (e_world s) (if e_run s then InRecv else Returned) s
      | InRecv | Holding _ _ _ =>
          match echo_op e s with
          | None => s
          | Some o =>
              let (w, r) := uop_do o (e_world s) in
              e_with w match r with RErr x => Died x | RFrom m a p => Holding m a p | _ => AtTest end s
          end
      | Returned | Died _ => s
      end
  end.
Fixpoint echo_run (es : list echo_ev) (s : echo) : echo :=
  match es with [] => s | e :: r => echo_run r (echo_do e s) end.
(** __thread_service, udp_service.py:91-124, with an address text that is valid: the socket is
    made and bound; an OSError of bind ends the thread with a message *)
Definition echo_start (f : family) (a port : Z) (run : bool) (w : world) : echo :=
  let i := w_next w in
  let w1 := fst (uop_do (UNew f) w) in
  let (w2, r) := uop_do (UBind 0 i (Some a) port) w1 in
  {| e_world := w2; e_sock := i; e_run := run;
     e_at := match r with RErr (OsError _) | RErr GaiError => Returned | RErr x => Died x | _ => AtTest end |}.

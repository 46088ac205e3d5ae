(** The ARP and the ND cache with their maintenance threads.  No proofs here.
    The two classes have the same text up to the name of the dictionary and the request
    they send, so one definition takes the cache as an argument. *)
From Verif Require Import Base AddrModel StackModel.

Inductive which := Arp | Nd.
(** self._arp_cache, arp_cache.py:77; self._nd_cache, nd_cache.py:81 *)
Definition the_cache (w : which) (s : stack) : cache := match w with Arp => s_arp s | Nd => s_nd s end.
Definition set_cache (w : which) (c : cache) (s : stack) : stack :=
  match w with Arp => set_arp c s | Nd => set_nd c s end.
(** _send_arp_request, arp_cache.py:179-193; _send_icmp6_neighbor_solicitation,
    nd_cache.py:185-206 *)
Definition resolve_req (w : which) (ip : Z) : M unit := match w with Arp => send_arp_request ip | Nd => send_ns ip end.
(** add_entry, arp_cache.py:144-155, nd_cache.py:149-160 *)
Definition c_add (w : which) (ip mac : Z) : M unit := match w with Arp => arp_add ip mac | Nd => nd_add ip mac end.
(** find_entry, arp_cache.py:157-177, nd_cache.py:162-183 *)
Definition c_find (w : which) (ip : Z) : M (option Z) := match w with Arp => arp_find ip | Nd => nd_find send_ns ip end.

(** ARP_CACHE_ENTRY_MAX_AGE, ARP_CACHE_ENTRY_REFRESH_TIME, config.py:123-124 and the ND
    pair, config.py:129-130; in milliseconds *)
Definition max_age (w : which) : Z := match w with Arp => 3600 * 1000 | Nd => 3600 * 1000 end.
Definition refresh_time (w : which) : Z := match w with Arp => 300 * 1000 | Nd => 300 * 1000 end.

(** what the loop body decides for one key, arp_cache.py:106-129, nd_cache.py:111-134;
    a key that is gone raises KeyError *)
Inductive upkeep := Leave | Discard | Refresh.
Definition look (w : which) (now : Z) (e : entry) : upkeep :=
  if ce_perm e then Leave
  else if now - ce_time e >? max_age w then Discard
  else if (now - ce_time e >? max_age w - refresh_time w) && negb (ce_hits e =? 0) then Refresh
  else Leave.
Definition no_hits (e : entry) : entry := {| ce_mac := ce_mac e; ce_perm := ce_perm e; ce_time := ce_time e; ce_hits := 0 |}.

(** arp_cache.py:115 / nd_cache.py:120: pop raises KeyError when the key is gone *)
Definition pop_key (w : which) (k : Z) : M unit :=
  c <~ gets (the_cache w) ;;
  match cache_get k c with
  | None => raise KeyError
  | Some _ => upd (set_cache w (cache_del k c))
  end.
(** one turn of the for loop, arp_cache.py:105-137, nd_cache.py:110-142; logging left out:
    after a refresh it reads the entry of a key that is still there *)
Definition maintain_key (w : which) (k : Z) : M unit :=
  c <~ gets (the_cache w) ;;
  now <~ gets s_now ;;
  match cache_get k c with
  | None => raise KeyError
  | Some e =>
      match look w now e with
      | Leave => ret tt
      | Discard => pop_key w k
      | Refresh => _ <~ upd (set_cache w (cache_set k (no_hits e) c)) ;; resolve_req w k
      end
  end.
Fixpoint maintain_keys (w : which) (l : list Z) : M unit :=
  match l with
  | [] => ret tt
  | k :: r => _ <~ maintain_key w k ;; maintain_keys w r
  end.
(** one pass of the while loop, nothing happening in between *)
Definition maintain (w : which) : M unit :=
  c <~ gets (the_cache w) ;; maintain_keys w (map fst c).

(** ** Histories *)

Inductive cop :=
| CUpdate (ip mac : Z)      (* add_entry *)
| CLookup (ip : Z)          (* find_entry *)
| CMaintain                 (* a pass of the maintenance thread *)
| CClock (d : Z).           (* d milliseconds go by *)
Definition cop_do (w : which) (o : cop) : M (option Z) :=
  match o with
  | CUpdate ip mac => _ <~ c_add w ip mac ;; ret None
  | CLookup ip => c_find w ip
  | CMaintain => _ <~ maintain w ;; ret None
  | CClock d => now <~ gets s_now ;; _ <~ upd (set_now (now + d)) ;; ret None
  end.
Fixpoint cop_run (w : which) (l : list cop) : M unit :=
  match l with
  | [] => ret tt
  | o :: r => _ <~ cop_do w o ;; cop_run w r
  end.

(** ** The maintenance thread as one thread among others

    The steps between which another thread may run: taking the list of keys; deciding what
    to do with a key; popping it.  (The refresh branch is one step.) *)
Inductive mpc := Idle | Keys (l : list Z) | Popping (k : Z) (l : list Z).
Inductive fop :=
| FUpdate (ip mac : Z)
| FLookup (ip : Z)
| FClock (d : Z)
| FStep.                    (* the maintenance thread makes a step *)
Definition fstep (w : which) (p : mpc) : M mpc :=
  match p with
  | Idle => c <~ gets (the_cache w) ;; ret (Keys (map fst c))
  | Keys [] => ret Idle
  | Keys (k :: l) =>
      c <~ gets (the_cache w) ;;
      now <~ gets s_now ;;
      match cache_get k c with
      | None => raise KeyError
      | Some e =>
          match look w now e with
          | Leave => ret (Keys l)
          | Discard => ret (Popping k l)
          | Refresh => _ <~ upd (set_cache w (cache_set k (no_hits e) c)) ;; _ <~ resolve_req w k ;; ret (Keys l)
          end
      end
  | Popping k l => _ <~ pop_key w k ;; ret (Keys l)
  end.
Definition fop_do (w : which) (o : fop) (p : mpc) : M (mpc * option Z) :=
  match o with
  | FUpdate ip mac => _ <~ c_add w ip mac ;; ret (p, None)
  | FLookup ip => r <~ c_find w ip ;; ret (p, r)
  | FClock d => now <~ gets s_now ;; _ <~ upd (set_now (now + d)) ;; ret (p, None)
  | FStep => p' <~ fstep w p ;; ret (p', None)
  end.
Fixpoint fop_run (w : which) (l : list fop) (p : mpc) : M mpc :=
  match l with
  | [] => ret p
  | o :: r => x <~ fop_do w o p ;; fop_run w r (fst x)
  end.

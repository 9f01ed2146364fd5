(** * Model of rdata/svcb.rs. *)
From Verif Require Import Base Buffer Fqdn.

(** svcb.rs:109-119, [ParamKey]. *)
Inductive pkey : Set := KMandatory | KAlpn | KNoDefaultAlpn | KPort | KIpV4Hint | KEch | KIpV6Hint
                      | KPrivate (n : N) | KInvalid.
(** svcb.rs:140-154. *)
Definition pkey_code (k : pkey) : N :=
  match k with
  | KMandatory => 0 | KAlpn => 1 | KNoDefaultAlpn => 2 | KPort => 3 | KIpV4Hint => 4 | KEch => 5
  | KIpV6Hint => 6 | KPrivate n => n | KInvalid => 65535
  end.
(** svcb.rs:121-138. *)
Definition pkey_try_from (n : N) : res pkey :=
  match assoc n [(0, KMandatory); (1, KAlpn); (2, KNoDefaultAlpn); (3, KPort); (4, KIpV4Hint);
                 (5, KEch); (6, KIpV6Hint)] with
  | Some k => Ok k
  | None => if (65280 <=? n) && (n <=? 65534) then Ok (KPrivate n)
            else if n =? 65535 then Ok KInvalid
            else Err (InvalidSvcbParam n)
  end.

(** svcb.rs:169-179, [Param].  A [BTreeSet<ParamKey>] is the list of its elements in increasing
    order; [Ord] of [ParamKey] compares the numbers (162-166). *)
Inductive param : Set :=
| PMandatory (keys : list pkey)
| PAlpn (ids : list bytes)
| PNoDefaultAlpn
| PPort (n : N)
| PIpV4Hint (a : N)
| PEch (b : bytes)
| PIpV6Hint (a : N)
| PPrivate (num : N) (b : bytes)
| PInvalid.

(** svcb.rs:182-194. *)
Definition param_key (p : param) : pkey :=
  match p with
  | PMandatory _ => KMandatory | PAlpn _ => KAlpn | PNoDefaultAlpn => KNoDefaultAlpn
  | PPort _ => KPort | PIpV4Hint _ => KIpV4Hint | PEch _ => KEch | PIpV6Hint _ => KIpV6Hint
  | PPrivate n _ => KPrivate n | PInvalid => KInvalid
  end.
(** [Ord for Param] (295-299) compares keys, hence numbers. *)
Definition param_code (p : param) : N := pkey_code (param_key p).

(** svcb.rs:205-211: [while len > 0 { keys.insert(..); len -= 2 }], [len : usize].
    The fuel is the number of remaining bytes plus one; every iteration consumes two. *)
Fixpoint mandatory_loop (c : cfg) (fuel : nat) (len : N) (acc : list pkey) : P (list pkey) := fun b =>
  if len =? 0 then (Ok acc, b)
  else match fuel with
       | O => (Diverge, b)
       | S f => (k <- extract_u16_as pkey_try_from ;;
                 len' <- lift (usub c M64 len 2) ;;
                 mandatory_loop c f len' (set_insert pkey_code k acc)) b
       end.

(** svcb.rs:213-219: [while len > 0 { .. len -= inner_len + 1 }]. *)
Fixpoint alpn_loop (c : cfg) (fuel : nat) (len : N) (acc : list bytes) : P (list bytes) := fun b =>
  if len =? 0 then (Ok acc, b)
  else match fuel with
       | O => (Diverge, b)
       | S f => (n <- extract_u8 ;;
                 s <- extract_bytes (N.to_nat n) ;;
                 len' <- lift (usub c M64 len (n + 1)) ;;
                 alpn_loop c f len' (acc ++ [s])) b
       end.

(** svcb.rs:200-235, [TryFrom<&mut DnsBuffer> for Param]. *)
Definition param_try_from (c : cfg) : P param :=
  key <- extract_u16_as pkey_try_from ;;
  len <- extract_u16 ;;
  match key with
  | KMandatory => fun b => (ks <- mandatory_loop c (S (remaining b)) len [] ;; ret (PMandatory ks)) b
  | KAlpn => fun b => (l <- alpn_loop c (S (remaining b)) len [] ;; ret (PAlpn l)) b
  | KNoDefaultAlpn => ret PNoDefaultAlpn
  | KPort => n <- extract_u16 ;; ret (PPort n)
  | KIpV4Hint => a <- extract_u32 ;; ret (PIpV4Hint a)
  | KEch => bs <- extract_bytes (N.to_nat len) ;; ret (PEch bs)
  | KIpV6Hint => bs <- extract_bytes 16 ;; ret (PIpV6Hint (unbe bs))
  | KPrivate n => bs <- extract_bytes (N.to_nat len) ;; ret (PPrivate n bs)
  | KInvalid => ret PInvalid
  end.

(** svcb.rs:239-251. *)
Definition param_byte_size (p : param) : nat :=
  4 + match p with
      | PMandatory ks => length ks * 2
      | PAlpn l => fold_left (fun acc a => acc + length a + 1) l 0
      | PNoDefaultAlpn => 0
      | PPort _ => 2
      | PIpV4Hint _ => 4
      | PEch b => length b
      | PIpV6Hint _ => 16
      | PPrivate _ b => length b
      | PInvalid => 0
      end%nat.

(** svcb.rs:265-284: the value part. *)
Definition param_value_bytes (p : param) : bytes :=
  match p with
  | PMandatory ks => flat_map (fun k => be 2 (pkey_code k)) ks
  | PAlpn l => flat_map (fun a => len8 (length a) :: a) l
  | PNoDefaultAlpn => []
  | PPort n => be 2 n
  | PIpV4Hint a => be 4 a
  | PEch b => b
  | PIpV6Hint a => be 16 a
  | PPrivate _ b => b
  | PInvalid => []
  end.

(** svcb.rs:253-286; [byte_size as u16 - 4] can underflow. *)
Definition param_to_bytes (c : cfg) (p : param) : res bytes :=
  let! l := usub c M16 (len16 (param_byte_size p)) 4 in
  Ok (be 2 (pkey_code (param_key p)) ++ be 2 l ++ param_value_bytes p).

(** svcb.rs:19-31, [Svcb]; [params] in increasing order of the key number. *)
Record svcb := mkSvcb { sv_prio : N; sv_target : fqdn; sv_params : list param }.

(** svcb.rs:39-45, 103-106, [mode]. *)
Inductive svcb_mode : Set := ModeAlias | ModeService.
Definition svcb_mode_of (x : svcb) : svcb_mode := if sv_prio x =? 0 then ModeAlias else ModeService.

(** svcb.rs:57-62: parse one parameter in a sub-buffer, insert it, move to where it ended.  When the
    parameter fails to parse, [buffer] itself has not moved. *)
Definition param_step (c : cfg) (acc : list param) : P (list param) := fun b =>
  match sub_buffer b (remaining b) with
  | Ok sb =>
    match param_try_from c sb with
    | (Ok p, sb') => (_ <- set_position (pos sb') ;; ret (set_insert param_code p acc)) b
    | (Err e, _) => (Err e, b)
    | (Panic, _) => (Panic, b)
    | (Diverge, _) => (Diverge, b)
    end
  | Err e => (Err e, b)
  | Panic => (Panic, b)
  | Diverge => (Diverge, b)
  end.

(** svcb.rs:51-70. *)
Definition svcb_try_from (c : cfg) : P svcb :=
  p <- extract_u16 ;;
  f <- extract_fqdn ;;
  ps <- loop_remaining (param_step c) [] ;;
  ret (mkSvcb p f ps).

(** svcb.rs:84-90: adds 4 per parameter to a size that already includes them. *)
Definition svcb_byte_size (x : svcb) : nat :=
  2 + fqdn_byte_size (sv_target x)
  + fold_left (fun acc p => (acc + 4 + param_byte_size p)%nat) (sv_params x) 0%nat.

(** svcb.rs:96-98. *)
Fixpoint params_bytes (c : cfg) (ps : list param) : res bytes :=
  match ps with
  | [] => Ok []
  | p :: ps' => let! b := param_to_bytes c p in let! rest := params_bytes c ps' in Ok (b ++ rest)
  end.

(** svcb.rs:92-100. *)
Definition svcb_to_bytes (c : cfg) (x : svcb) : res bytes :=
  let! ps := params_bytes c (sv_params x) in
  Ok (be 2 (sv_prio x) ++ fqdn_to_bytes (sv_target x) ++ ps).

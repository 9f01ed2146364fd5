(** * Specification: how much a packet holds.

    The octets of all names and strings and the number of elements of all lists; not the fixed size of each value. *)
From Verif Require Import Base Fqdn Header Types RDataBasic Bitmap Svcb RDataSec RData Packet ObjectSpec.

Definition total {X} (size : X -> nat) (l : list X) : nat := fold_right (fun x n => size x + n)%nat 0%nat l.
Definition element (s : bytes) : nat := S (length s).
Definition held_param (x : param) : nat :=
  match x with
  | PMandatory ks => length ks
  | PAlpn ids => total element ids
  | PEch v | PPrivate _ v => length v
  | _ => 0
  end.
Definition held_data (x : rdata) : nat :=
  match x with
  | DA _ | DAAAA _ | DLOC _ | DAPL _ => 0
  | DNS f | DCNAME f | DPTR f => octets_in_name f
  | DSOA x => octets_in_name (soa_mname x) + octets_in_name (soa_rname x)
  | DNULL b | DOPENPGPKEY b | DEUI48 b | DEUI64 b => length b
  | DWKS x => length (wks_bitmap x)
  | DHINFO x => length (hinfo_cpu x) + length (hinfo_os x)
  | DMINFO x => octets_in_name (minfo_r x) + octets_in_name (minfo_e x)
  | DMX x => octets_in_name (mx_exchange x)
  | DTXT l => total element l
  | DSRV x => octets_in_name (srv_target x)
  | DNAPTR x => length (na_flags x) + length (na_service x) + length (na_regexp x) + octets_in_name (na_repl x)
  | DOPT m => total (fun x => element (snd x)) m
  | DDS x | DCDS x => length (ds_digest x)
  | DSSHFP x => length (ssh_fp x)
  | DIPSECKEY x => match ip_gw x with GwDomain f => octets_in_name f | _ => 0 end + length (ip_pk x)
  | DRRSIG x => octets_in_name (rs_signer x) + length (rs_sig x)
  | DNSEC x => octets_in_name (ns_next x) + length (ns_types x)
  | DDNSKEY x | DCDNSKEY x => length (dk_pk x)
  | DDHCID x => length (dhcid_digest x)
  | DTLSA x => length (tlsa_data x)
  | DHIP x => length (hip_hit x) + length (hip_pk x) + match hip_rv x with Some l => total octets_in_name l | None => 0 end
  | DCSYNC x => length (cs_types x)
  | DSVCB x => octets_in_name (sv_target x) + total (fun p => S (held_param p)) (sv_params x)
  | DTKEY x => octets_in_name (tk_alg x) + length (tk_key x) + length (tk_other x)
  | DTSIG x => octets_in_name (ts_alg x) + length (ts_mac x) + length (ts_other x)
  | DURI x => length (uri_target x)
  | DCAA x => length (caa_tag x) + length (caa_value x)
  end%nat.
Definition held_record (r : rr) : nat := S (octets_in_name (rr_name r) + held_data (rr_data r)).
Definition held (p : packet) : nat :=
  (total (fun q => S (octets_in_name (q_name q))) (p_questions p) + total held_record (p_answers p ++ p_authorities p ++ p_additionals p))%nat.

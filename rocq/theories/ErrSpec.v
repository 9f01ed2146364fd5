(** * Specification: exactly which messages are rejected, and with which error.

    For every record type its parts in the order in which they stand, and for every kind of part what
    can be wrong with it and which error says so.  Everything is about the raw octets, with the pieces
    of [ReadSpec]; no parser of the model occurs.  A message is rejected with the error of the first
    part that is wrong, all parts in front of it being readable. *)
From Verif Require Import Base Utf8Facts Fqdn Header Types RDataBasic Bitmap Svcb RDataSec RData Packet BaseFacts NameSpec CodeSpec HeaderSpec WireSpec
  FailSpec FieldSpec ReadSpec StopSpec.

(** A part: the values it can have, where such a value is read from, and what is wrong where. *)
Record part := mkPart { value : Type; reads : value -> piece; fault : dns_error -> nat -> Prop }.
(** Parts one behind the other; later ones may depend on the values of earlier ones. *)
Inductive parts :=
| Done
| And (x : part) (more : value x -> parts).
Notation "x ,, l" := (And x (fun _ => l)) (at level 61, right associativity).

(** The first part that is wrong has this fault. *)
Fixpoint first_fault (l : parts) (e : dns_error) (p : nat) : Prop :=
  match l with
  | Done => False
  | And x more => fault x e p \/ exists v m, reads x v p m /\ first_fault (more v) e m
  end.

Section Parts.
  (** [w]: the message cut at the end of the record. *)
  Context (c : cfg) (w : bytes).
  (** Fewer than [n] octets are left. *)
  Definition cut (n : nat) (e : dns_error) (p : nat) : Prop := (length w < p + n)%nat /\ e = LengthViolation.
  Definition integer (k : nat) : part := mkPart N (num w k) (cut k).
  Definition run (n : nat) : part := mkPart bytes (fun s p m => octets w s p m /\ length s = n) (cut n).
  (** The number of a value of an enumeration (of one for which [dom] holds). *)
  Definition enum {X} (k : nat) (dom : X -> Prop) (code : X -> N) (error : N -> dns_error) : part :=
    mkPart X (fun x p m => dom x /\ num w k (code x) p m)
      (fun e p => cut k e p \/ exists v m, num w k v p m /\ (forall x, dom x -> code x <> v) /\ e = error v).
  (** Not allowed at all. *)
  Definition refused (error : dns_error) : part := mkPart False (fun _ _ _ => False) (fun e _ => e = error).

  (** Following a name, a pointer is met that leads behind the first pointer of the name, or a pointer
      or label of which more than the last octet is missing.  (If exactly the last octet of a label is
      missing, or the root label, see [runs_off].) *)
  Definition name_fault (e : dns_error) (p : nat) : Prop := exists o q, hops w (None, p) (o, q) /\
    ((exists t, pointer_at w q t /\ (match o with None => q | Some o => o end < t)%nat /\ e = UnresolveableCompressionPointer) \/
     (exists a, nth_error w q = Some a /\ 192 <= a /\ cut 2 e q) \/
     (exists n, nth_error w q = Some n /\ 1 <= n <= 191 /\ cut (N.to_nat n) e q)).
  Definition domain_name : part := mkPart (list bytes) (name w) name_fault.

  Definition short_string (e : dns_error) (p : nat) : Prop := cut 1 e p \/ exists n, nth_error w p = Some n /\ cut (1 + N.to_nat n) e p.
  Definition string : part := mkPart bytes (str w) short_string.
  Definition text : part := mkPart bytes (text_str w) (fun e p => short_string e p \/ exists s m, str w s p m /\ ~ is_text s /\ e = LengthViolation).
  Definition block : part := mkPart bytes (sized w)
    (fun e p => cut 2 e p \/ exists n m, num w 2 n p m /\ cut (N.to_nat n) e m).

  (** Entries up to the end of the data. *)
  Definition all_fault {X} (entry : nat -> X -> nat -> Prop) (bad : dns_error -> nat -> Prop) (e : dns_error) (p : nat) : Prop :=
    exists xs m, consecutive entry p xs m /\ (m < length w)%nat /\ bad e m.
  Definition all {X} (entry : nat -> X -> nat -> Prop) (bad : dns_error -> nat -> Prop) : part := mkPart (list X) (entries w entry) (all_fault entry bad).

  (** A window of a type bitmap marks a number that is no known type; this is the lowest of them. *)
  Definition unknown_type (x : N * bytes) (e : dns_error) : Prop := exists n,
    marked [x] n /\ (n < 65536 \/ ovf c = false) /\ (forall t, ~ bit_means c n t) /\
    (forall k, marked [x] k -> k < n -> exists t, bit_means c k t) /\ e = InvalidType (n mod 65536).
  Definition window_fault (e : dns_error) (p : nat) : Prop :=
    first_fault (integer 1 ,, And (integer 1) (fun n => run (N.to_nat n) ,, Done)) e p \/
    exists x m, window_at w p x m /\ unknown_type x e.
  Definition known_window (p : nat) (x : N * bytes) (m : nat) : Prop := window_at w p x m /\ forall n, marked [x] n -> exists t, bit_means c n t.
  Definition types : part := all known_window window_fault.

  (** Elements of a list of [len] octets.  Without overflow checks a list that overruns its length goes
      on until something is wrong. *)
  Definition list_of (element : part) (el : nat -> value element -> nat -> Prop) (len : N) : part :=
    mkPart (list (value element)) (fun xs p m => consecutive el p xs m /\ m = (p + N.to_nat len)%nat)
      (fun e p => exists xs m, consecutive el p xs m /\ fault element e m /\
         ((m < p + N.to_nat len)%nat \/ ovf c = false /\ overruns el p len /\ (p + N.to_nat len < m)%nat)).
  Definition svcb_key : part := enum 2 pkey_documented pkey_code InvalidSvcbParam.
  Definition svcb_value (k : pkey) (len : N) : parts :=
    match k with
    | KMandatory => list_of svcb_key (key_at w) len ,, Done
    | KAlpn => list_of string (string_at w) len ,, Done
    | KNoDefaultAlpn | KInvalid => Done
    | KPort => integer 2 ,, Done
    | KIpV4Hint => integer 4 ,, Done
    | KIpV6Hint => integer 16 ,, Done
    | KEch | KPrivate _ => run (N.to_nat len) ,, Done
    end.
  Definition param_fault (e : dns_error) (p : nat) : Prop :=
    first_fault (And svcb_key (fun k => And (integer 2) (svcb_value k))) e p.

  (** The parts of the data of each type.  What is only the rest of the data is left out. *)
  Definition data_parts (t : rtype) : parts :=
    match t with
    | A => integer 4 ,, Done
    | NS | CNAME | PTR => domain_name ,, Done
    | SOA => domain_name ,, domain_name ,, integer 4 ,, integer 4 ,, integer 4 ,, integer 4 ,, integer 4 ,, Done
    | NULL | OPENPGPKEY => Done
    | WKS => integer 4 ,, integer 1 ,, Done
    | HINFO => string ,, string ,, Done
    | MINFO => domain_name ,, domain_name ,, Done
    | MX => integer 2 ,, domain_name ,, Done
    | TXT => all (string_at w) short_string ,, Done
    | AAAA => integer 16 ,, Done
    | LOC => integer 1 ,, integer 1 ,, integer 1 ,, integer 1 ,, integer 4 ,, integer 4 ,, integer 4 ,, Done
    | SRV => integer 2 ,, integer 2 ,, integer 2 ,, domain_name ,, Done
    | NAPTR => integer 2 ,, integer 2 ,, string ,, string ,, text ,, domain_name ,, Done
    | OPT => all (option_at w) (first_fault (integer 2 ,, block ,, Done)) ,, Done
    | APL => And (integer 2) (fun family => integer 1 ,, And (integer 1) (fun o => run (N.to_nat (o mod 128 / 2 * 2)) ,,
               if (family =? 1) || (family =? 2) then Done else refused (InvalidAplFamily family) ,, Done))
    | DS | CDS => integer 2 ,, enum 1 any salg_code InvalidDnsSecAlgorithm ,, enum 1 any digest_type_code InvalidDigestType ,, Done
    | SSHFP => enum 1 any alg_code InvalidSSHFPAlgorithm ,, enum 1 any fptype_code InvalidSSHFPFingerprintType ,, string ,, Done
    | IPSECKEY => integer 1 ,, And (integer 1) (fun g => enum 1 any alg_code InvalidSSHFPAlgorithm ,,
               match g with
               | 0 => integer 1 ,, Done
               | 1 => integer 4 ,, Done
               | 2 => integer 16 ,, Done
               | 3 => domain_name ,, Done
               | _ => refused (InvalidIpSecKeyGatewayType g) ,, Done
               end)
    | RRSIG => enum 2 (decodable c) rtype_code InvalidType ,, enum 1 any salg_code InvalidDnsSecAlgorithm ,, integer 1 ,, integer 4 ,, integer 4 ,,
               integer 4 ,, integer 2 ,, domain_name ,, Done
    | NSEC => domain_name ,, types ,, Done
    | DNSKEY | CDNSKEY => integer 2 ,, integer 1 ,, enum 1 any salg_code InvalidDnsSecAlgorithm ,, Done
    | DHCID => enum 2 any idtype_code InvalidIdentifierTypeError ,, And (integer 1) (fun d => if d =? 1 then Done else refused (InvalidDigestType d) ,, Done)
    | TLSA => enum 1 any cert_usage_code InvalidTLSACertUsage ,, enum 1 any selector_code InvalidSSHFPAlgorithm ,, enum 1 any matching_code InvalidSSHFPAlgorithm ,, Done
    | HIP => And (integer 1) (fun i => enum 1 any alg_code InvalidSSHFPAlgorithm ,, And (integer 2) (fun j =>
               run (N.to_nat i) ,, run (N.to_nat j) ,, all (name_at w 191) name_fault ,, Done))
    | CSYNC => integer 4 ,, enum 2 (fun v => v < 4) (fun v => v) InvalidCsyncFlag ,, types ,, Done
    | SVCB => integer 2 ,, domain_name ,, all (param_at w) param_fault ,, Done
    | EUI48 => run 6 ,, Done
    | EUI64 => run 8 ,, Done
    | TKEY => domain_name ,, integer 4 ,, integer 4 ,, enum 2 tkmode_documented tkmode_code InvalidTkeyMode ,,
               enum 2 tkerr_documented tkerr_code InvalidTkeyError ,, block ,, block ,, Done
    | TSIG => domain_name ,, integer 6 ,, integer 2 ,, block ,, integer 2 ,, enum 2 any tserr_code InvalidTkeyError ,, block ,, Done
    | URI => integer 2 ,, integer 2 ,, Done
    | CAA => integer 1 ,, And (integer 1) (fun n => if n =? 0 then refused InvalidPacketData ,, Done else run (N.to_nat n) ,, Done)
    end.
End Parts.

Section Messages.
  Context (c : cfg) (d : bytes).
  (** The data of a record: as many octets as announced, in which nothing is wrong. *)
  Definition data_part (t : rtype) (len : N) : part := mkPart unit (fun _ p m => m = (p + N.to_nat len)%nat)
    (fun e p => cut d (N.to_nat len) e p \/
       (p + N.to_nat len <= length d)%nat /\ first_fault (data_parts c (firstn (p + N.to_nat len) d) t) e p).
  Definition record_fault : dns_error -> nat -> Prop := first_fault
    (domain_name d ,, And (enum d 2 (decodable c) rtype_code InvalidType) (fun t => integer d 2 ,, integer d 4 ,,
     And (integer d 2) (fun len => data_part t len ,, Done))).
  (** The class of a question; the highest bit does not count. *)
  Definition class_part : part := mkPart qclass (fun k p m => exists v, num d 2 v p m /\ qclass_code k = v mod 32768)
    (fun e p => cut d 2 e p \/ exists v m, num d 2 v p m /\ (forall k, qclass_code k <> v mod 32768) /\ e = InvalidClass (v mod 32768)).
  Definition question_fault : dns_error -> nat -> Prop := first_fault
    (domain_name d ,, enum d 2 (qdecodable c) qtype_code InvalidType ,, class_part ,, Done).
  (** Compare [message_stops]. *)
  Definition message_fault (e : dns_error) : Prop :=
    (length d < 12)%nat /\ e = LengthViolation \/
    (12 <= length d)%nat /\
    (section_fails (question_at c d) (question_fault e) (v_qd (fields_of d)) 12 \/
     exists e1, section_reads (question_at c d) (v_qd (fields_of d)) 12 e1 /\
     (section_fails (record_on_wire c d) (record_fault e) (v_an (fields_of d)) e1 \/
      exists e2, section_reads (record_on_wire c d) (v_an (fields_of d)) e1 e2 /\
      (section_fails (record_on_wire c d) (record_fault e) (v_ns (fields_of d)) e2 \/
       exists e3, section_reads (record_on_wire c d) (v_ns (fields_of d)) e2 e3 /\
         section_fails (record_on_wire c d) (record_fault e) (v_ar (fields_of d)) e3))).
End Messages.

(** The errors that rejecting a message can report: neither those about response codes, NAPTR flags,
    TLSA selectors and matching types, nor those of signing and verifying. *)
Definition reported (e : dns_error) : Prop :=
  match e with
  | InvalidResponseCode _ | InvalidNaptrFlag _ | InvalidTLSASelector _ | InvalidTLSAMatchingType _
  | InvalidDnsSecSignatureTimespan | DnsSecVerificationError | DnsSecSigningError => False
  | _ => True
  end.

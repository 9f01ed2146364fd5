(** * Model: the hash of name compression

    Everywhere else the hash is an arbitrary function ([hasher]).  Here it is the one the standard library has today.  External code: SipHash as
    published by Aumasson and Bernstein (2012), with one compression round, three finalisation rounds and the key 0, which is what
    [std::collections::hash_map::DefaultHasher::new] uses; the library does not promise to keep it. *)
From Verif Require Import Base Buffer Fqdn.

Definition w64 (x : N) : N := x mod 18446744073709551616.
Definition rotl (x k : N) : N := N.lor (w64 (N.shiftl x k)) (N.shiftr x (64 - k)).
Record sip := mkSip { s0 : N; s1 : N; s2 : N; s3 : N }.
Definition sip_round (v : sip) : sip :=
  let a0 := w64 (s0 v + s1 v) in let a1 := N.lxor (rotl (s1 v) 13) a0 in let a0' := rotl a0 32 in
  let a2 := w64 (s2 v + s3 v) in let a3 := N.lxor (rotl (s3 v) 16) a2 in
  let b0 := w64 (a0' + a3) in let b3 := N.lxor (rotl a3 21) b0 in
  let b2 := w64 (a2 + a1) in let b1 := N.lxor (rotl a1 17) b2 in
  mkSip b0 b1 (rotl b2 32) b3.
(** A number as octets, the least significant first. *)
Fixpoint le (w : nat) (n : N) : bytes := match w with O => [] | S w => n mod 256 :: le w (n / 256) end.
Fixpoint unle (bs : bytes) : N := match bs with [] => 0 | b :: r => b + 256 * unle r end.
Definition sip_block (rounds : nat) (v : sip) (m : N) : sip :=
  let v' := Nat.iter rounds sip_round (mkSip (s0 v) (s1 v) (s2 v) (N.lxor (s3 v) m)) in mkSip (N.lxor (s0 v') m) (s1 v') (s2 v') (s3 v').
(** Blocks of eight octets; the last one has the number of octets modulo 256 on top. *)
Fixpoint sip_blocks (rounds fuel : nat) (len : N) (v : sip) (bs : bytes) : sip :=
  match fuel with
  | O => v
  | S fuel => if (length bs <? 8)%nat then sip_block rounds v (unle bs + w64 (len * 72057594037927936))
              else sip_blocks rounds fuel len (sip_block rounds v (unle (firstn 8 bs))) (skipn 8 bs)
  end.
Definition siphash (c d : nat) (k0 k1 : N) (bs : bytes) : N :=
  let v := mkSip (N.lxor k0 8317987319222330741) (N.lxor k1 7237128888997146477) (N.lxor k0 7816392313619706465) (N.lxor k1 8387220255154660723) in
  let v := sip_blocks c (S (length bs)) (N.of_nat (length bs)) v bs in
  let v := Nat.iter d sip_round (mkSip (s0 v) (s1 v) (N.lxor (s2 v) 255) (s3 v)) in
  N.lxor (N.lxor (s0 v) (s1 v)) (N.lxor (s2 v) (s3 v)).
(** What [Hash for [Vec<u8>]] feeds to the hasher where [usize] has 64 bits and the least significant octet comes first: the number of labels,
    then for each its length and its octets. *)
Definition hash_stream (f : fqdn) : bytes := le 8 (N.of_nat (length f)) ++ flat_map (fun l => le 8 (N.of_nat (length l)) ++ l) f.
(** util.rs:8-14. *)
Definition hash_fqdn : hasher := fun f => siphash 1 3 0 0 (hash_stream f).

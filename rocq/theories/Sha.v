(** * The hash functions SHA-1 and SHA-256 (FIPS 180-4)

    External code: the crate sha1 (dnssec.rs:535-557, 761-820) and ring's digests (dnssec.rs:945-957, dhcid.rs) compute
    them.  Here they are written down from the standard, to put in place of the arguments of the model (C94, [Conformance.v]). *)
From Verif Require Import Base.

(** 2.2.2, 3.2: operations on words of 32 bits. *)
Definition w32 (n : N) : N := n mod 4294967296.
Definition rotl (k x : N) : N := w32 (N.shiftl x k) + N.shiftr x (32 - k).
Definition rotr (k x : N) : N := rotl (32 - k) x.
Definition choose (x y z : N) : N := N.lxor (N.land x y) (N.land (4294967295 - x) z).
Definition parity (x y z : N) : N := N.lxor (N.lxor x y) z.
Definition majority (x y z : N) : N := N.lxor (N.lxor (N.land x y) (N.land x z)) (N.land y z).

(** 5.1.1: one bit, zeros, the length in bits in 64 bits. *)
Definition padded (m : bytes) : bytes :=
  m ++ [128] ++ repeat 0 ((119 - length m mod 64) mod 64) ++ be 8 (8 * N.of_nat (length m)).
(** 5.2.1: words, and blocks of 16 of them. *)
Fixpoint words (l : bytes) : list N :=
  match l with a :: b :: c :: d :: r => unbe [a; b; c; d] :: words r | _ => [] end.
Fixpoint blocks (fuel : nat) (l : list N) : list (list N) :=
  match fuel, l with
  | S f, _ :: _ => firstn 16 l :: blocks f (skipn 16 l)
  | _, _ => []
  end.
(** The message schedule, last word first: [k] more words by [next]. *)
Fixpoint schedule (next : list N -> N) (k : nat) (w : list N) : list N :=
  match k with O => w | S k => schedule next k (next w :: w) end.
Definition added (a b : list N) : list N := map (fun p => w32 (fst p + snd p)) (combine a b).

(** ** SHA-1: 4.1.1, 4.2.1, 5.3.1, 6.1.2 *)
Definition sha1_next (w : list N) : N := rotl 1 (N.lxor (N.lxor (nth 2 w 0) (nth 7 w 0)) (N.lxor (nth 13 w 0) (nth 15 w 0))).
Definition sha1_step (s : list N) (kw : nat * N) : list N :=
  match s with
  | [a; b; c; d; e] =>
    let t := fst kw in
    let f := if (t <? 20)%nat then choose b c d else if (t <? 40)%nat then parity b c d else if (t <? 60)%nat then majority b c d else parity b c d in
    let k := if (t <? 20)%nat then 1518500249 else if (t <? 40)%nat then 1859775393 else if (t <? 60)%nat then 2400959708 else 3395469782 in
    [w32 (rotl 5 a + f + e + k + snd kw); a; rotl 30 b; c; d]
  | _ => s
  end.
Definition sha1_block (h : list N) (b : list N) : list N :=
  added h (fold_left sha1_step (combine (seq 0 80) (rev (schedule sha1_next 64 (rev b)))) h).
Definition sha_1 (m : bytes) : bytes :=
  let w := words (padded m) in
  flat_map (be 4) (fold_left sha1_block (blocks (length w) w) [1732584193; 4023233417; 2562383102; 271733878; 3285377520]).

(** ** SHA-256: 4.1.2, 4.2.2, 5.3.3, 6.2.2 *)
Definition sha256_constants : list N :=
  [1116352408; 1899447441; 3049323471; 3921009573; 961987163; 1508970993; 2453635748; 2870763221; 3624381080;
   310598401; 607225278; 1426881987; 1925078388; 2162078206; 2614888103; 3248222580; 3835390401; 4022224774;
   264347078; 604807628; 770255983; 1249150122; 1555081692; 1996064986; 2554220882; 2821834349; 2952996808;
   3210313671; 3336571891; 3584528711; 113926993; 338241895; 666307205; 773529912; 1294757372; 1396182291;
   1695183700; 1986661051; 2177026350; 2456956037; 2730485921; 2820302411; 3259730800; 3345764771; 3516065817;
   3600352804; 4094571909; 275423344; 430227734; 506948616; 659060556; 883997877; 958139571; 1322822218; 1537002063;
   1747873779; 1955562222; 2024104815; 2227730452; 2361852424; 2428436474; 2756734187; 3204031479; 3329325298].
Definition big0 (x : N) : N := parity (rotr 2 x) (rotr 13 x) (rotr 22 x).
Definition big1 (x : N) : N := parity (rotr 6 x) (rotr 11 x) (rotr 25 x).
Definition small0 (x : N) : N := parity (rotr 7 x) (rotr 18 x) (N.shiftr x 3).
Definition small1 (x : N) : N := parity (rotr 17 x) (rotr 19 x) (N.shiftr x 10).
Definition sha256_next (w : list N) : N := w32 (small1 (nth 1 w 0) + nth 6 w 0 + small0 (nth 14 w 0) + nth 15 w 0).
Definition sha256_step (s : list N) (kw : N * N) : list N :=
  match s with
  | [a; b; c; d; e; f; g; h] =>
    let t1 := h + big1 e + choose e f g + fst kw + snd kw in
    let t2 := big0 a + majority a b c in
    [w32 (t1 + t2); a; b; c; w32 (d + t1); e; f; g]
  | _ => s
  end.
Definition sha256_block (h : list N) (b : list N) : list N :=
  added h (fold_left sha256_step (combine sha256_constants (rev (schedule sha256_next 48 (rev b)))) h).
Definition sha_256 (m : bytes) : bytes :=
  let w := words (padded m) in
  flat_map (be 4) (fold_left sha256_block (blocks (length w) w)
    [1779033703; 3144134277; 1013904242; 2773480762; 1359893119; 2600822924; 528734635; 1541459225]).

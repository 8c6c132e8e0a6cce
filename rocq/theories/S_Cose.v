(* What C61 and C62 mean: COSE keys, independently of cose/cose.go. *)
From Verif Require Import Base M_Cbor S_Cbor M_Crypto M_Cose.

(* Keys as Go's key generation makes them. *)
Inductive proper_priv (C : Crypto) : cose_priv -> Prop :=
| ProperEc x y d : x < 2 ^ 256 -> y < 2 ^ 256 -> d < 2 ^ 256 ->
    proper_priv C {| kp_ec := Some {| ec_public := {| eq_curve := P256; eq_x := x; eq_y := y |}; ec_d := d |};
                     kp_ed := None; kp_rsa := None |}
| ProperEd seed : len seed = 32 ->
    proper_priv C {| kp_ec := None; kp_ed := Some (seed ++ ed_of_seed C seed); kp_rsa := None |}
| ProperRsa n e d p q pre :
    (-2147483648 <= e < 2147483648)%Z -> 1 < p -> 1 < q -> N.gcd p q = 1 ->
    Forall (fun n => N.size n <= 1000000) [n; d; p; q; rp_dp pre; rp_dq pre; rp_qinv pre] ->
    proper_priv C {| kp_ec := None; kp_ed := None;
      kp_rsa := Some {| rs_public := {| rq_n := n; rq_e := e |}; rs_d := d; rs_primes := [p; q];
                        rs_pre := Some pre |} |}.

(* Two private keys with the same numbers.  Precomputed RSA values are derived. *)
Inductive same_priv : cose_priv -> cose_priv -> Prop :=
| SameEc k : same_priv (priv_ec k) (priv_ec k)
| SameEd k : same_priv (priv_ed k) (priv_ed k)
| SameRsa k k' : rs_public k = rs_public k' -> rs_d k = rs_d k' -> rs_primes k = rs_primes k' ->
    same_priv (priv_rsa k) (priv_rsa k').

Inductive proper_pub : cose_pub -> Prop :=
| ProperPubEc x y : x < 2 ^ 256 -> y < 2 ^ 256 ->
    proper_pub (pub_ec {| eq_curve := P256; eq_x := x; eq_y := y |})
| ProperPubEd k : wfb k -> len k = 32 -> proper_pub (pub_ed k)
| ProperPubRsa n e : N.size n <= 1000000 -> (0 < e < 2147483648)%Z ->
    proper_pub (pub_rsa {| rq_n := n; rq_e := e |}).

(* RFC 8152: the COSE_Key of a P-256 public key for ES256, with coordinates [x] and
   [y] as byte strings. *)
Definition cose_es256 (x y : bytes) : cbor :=
  CMap [(CUint 1, CUint 2); (CUint 3, CNint 6); (CNint 0, CUint 1); (CNint 1, CBytes x); (CNint 2, CBytes y)].

(* The private key: with the scalar as well. *)
Definition cose_es256_private (x y d : bytes) : cbor :=
  CMap [(CUint 1, CUint 2); (CUint 3, CNint 6); (CNint 0, CUint 1); (CNint 1, CBytes x); (CNint 2, CBytes y);
        (CNint 3, CBytes d)].

(* The P-256 curve. *)
Definition p256_p : N := 115792089210356248762697446949407573530086143415290314195533631308867097853951.
Definition p256_b : N := 41058363725152142129326129780047268409114441015993725554835256314039467401291.
Definition on_p256 (x y : N) : Prop :=
  x < p256_p /\ y < p256_p /\ (y * y + 3 * x) mod p256_p = (x * x * x + p256_b) mod p256_p.

(* C68: the private and the public half belong together. *)
Inductive key_pair (C : Crypto) : cose_priv -> Prop :=
| PairEc d : valid_scalar d -> key_pair C (priv_ec (ec_key C d))
| PairEd seed : len seed = 32 -> key_pair C (priv_ed (seed ++ ed_of_seed C seed))
| PairRsa r : rsa_pair C r -> key_pair C (priv_rsa r)
with rsa_pair (C : Crypto) : rsa_priv -> Prop :=
| PairR e d p q pre : Znumtheory.prime (Z.of_N p) -> Znumtheory.prime (Z.of_N q) ->
    (e * Z.of_N d mod Z.lcm (Z.of_N p - 1) (Z.of_N q - 1) = 1)%Z ->
    rsa_precompute C d p q = Ok pre ->
    rsa_pair C {| rs_public := {| rq_n := p * q; rq_e := e |}; rs_d := d; rs_primes := [p; q]; rs_pre := Some pre |}.

(* Ed25519 and RSA-PSS verify what they sign. *)
Record sign_laws (C : Crypto) : Prop := {
  sl_ed : forall seed m, len seed = 32 ->
    ed_verify C (ed_of_seed C seed) m (ed_sign C (seed ++ ed_of_seed C seed) m) = true;
  sl_rsa : forall r h rnd, rsa_pair C r -> rsa_verify C (rs_public r) h (rsa_sign C r h rnd) = true
}.

(* RFC 8152 documents of the three key types, with integers and byte strings as given. *)
Definition integer (z : Z) : cbor := if (z <? 0)%Z then CNint (Z.to_N (- z - 1)) else CUint (Z.to_N z).
Definition private_part (label : N) (d : option bytes) : list (cbor * cbor) :=
  match d with Some b => [(CNint label, CBytes b)] | None => [] end.
Definition cose_ec2 (crv : Z) (x y : bytes) (d : option bytes) : cbor :=
  CMap ([(CUint 1, CUint 2); (CUint 3, CNint 6); (CNint 0, integer crv); (CNint 1, CBytes x); (CNint 2, CBytes y)] ++
        private_part 3 d).
Definition cose_ed25519 (x : bytes) (d : option bytes) : cbor :=
  CMap ([(CUint 1, CUint 1); (CUint 3, CNint 7); (CNint 0, CUint 6); (CNint 1, CBytes x)] ++ private_part 3 d).
Definition cose_rsa_private (n e d p q dp dq qinv : bytes) : cbor :=
  CMap [(CUint 1, CUint 3); (CUint 3, CNint 36); (CNint 0, CBytes n); (CNint 1, CBytes e); (CNint 2, CBytes d);
        (CNint 3, CBytes p); (CNint 4, CBytes q); (CNint 5, CBytes dp); (CNint 6, CBytes dq); (CNint 7, CBytes qinv)].

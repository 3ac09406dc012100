(* Model of anothertls/src/crypto/ellipticcurve/{math.rs (add, multiply), privatekey.rs, publickey.rs, ecdsa.rs} *)
From Verif Require Import Model.Base Model.Bytes Model.Curve Model.X25519 Model.Signature Model.Pem.

(* math.rs:86-96; addition on a Montgomery curve is `todo!()` *)
Definition ec_add_points {E} (p q : point) (c : curve) : outcome E point :=
  match equ c with
  | ShortWeierstrass => Ok (to_point (jacobian_add (from_point p) (from_point q) c) (cp c))
  | Montgomery => Panic
  end.

(* math.rs:98-113 *)
Definition ec_multiply {E} (p : point) (n : Z) (c : curve) : outcome E point :=
  match equ c with
  | Montgomery =>
      let! a := ibig_to_32bytes n Big in
      let! x := ibig_to_32bytes (px p) Big in
      let! res := scalarmult x a in
      Ok (Point (to_ibig_be res) 0)
  | ShortWeierstrass => Ok (to_point (jacobian_multiply (from_point p) n c) (cp c))
  end.

(* publickey.rs:8-11 *)
Record public_key := PublicKey { pk_point : point; pk_curve : curve }.
(* privatekey.rs:10-13 *)
Record private_key := PrivateKey { sk_curve : curve; sk_secret : Z }.

(* "EC PRIVATE KEY" *)
Definition s_EC_PRIVATE_KEY : list Z := [69; 67; 32; 80; 82; 73; 86; 65; 84; 69; 32; 75; 69; 89].

(* privatekey.rs:19-28, on the text of the file; `Err tt` is None.  A shorter key panics. *)
Definition private_key_from_pem (text : list Z) : outcome unit private_key :=
  let! raw := pem_parse text in
  match pem_get raw s_EC_PRIVATE_KEY with
  | None => Err tt
  | Some secret =>
      let! b := slice secret 7 39 in
      Ok (PrivateKey secp256r1 (to_ibig_be b))
  end.

(* privatekey.rs:29-32 *)
Definition get_public_key {E} (k : private_key) : outcome E public_key :=
  let! p := ec_multiply (cg (sk_curve k)) (sk_secret k) (sk_curve k) in
  Ok (PublicKey p (sk_curve k)).

(* ecdsa.rs:44-64.  `ks` are the values the random generator hands out; None is "the values ran
   out", i.e. the loop is still running. *)
Fixpoint sign_loop {E} (c : curve) (d msg : Z) (ks : list Z) : outcome E (option signature) :=
  match ks with
  | [] => Ok None
  | k :: ks' =>
      let! p := ec_multiply (cg c) k c in
      let r := rem_euclid (px p) (cn c) in
      if r =? 0 then sign_loop c d msg ks'
      else
        let s := rem_euclid ((msg + r * d) * inv k (cn c)) (cn c) in
        if s =? 0 then sign_loop c d msg ks'
        else Ok (Some {| sg_r := r; sg_s := s |})
  end.

(* ecdsa.rs:31-67 *)
Definition ecdsa_sign {E} (key : private_key) (hashed_message : list Z) (ks : list Z) : outcome E (option signature) :=
  sign_loop (sk_curve key) (sk_secret key) (to_ibig_be hashed_message) ks.

(* ecdsa.rs:69-120 *)
Definition ecdsa_verify {E} (key : public_key) (sign : signature) (hashed_message : list Z) : outcome E bool :=
  let c := pk_curve key in
  let q := pk_point key in
  if (px q =? 0) && (py q =? 0) then Ok false
  else if (px q =? cn c) && (py q =? cn c) then Ok false
  else if negb (contains c q) then Ok false
  else if (sg_s sign <=? 0) || (sg_s sign >=? cn c) then Ok false
  else if (sg_r sign <=? 0) || (sg_r sign >=? cn c) then Ok false
  else
    let z := to_ibig_be hashed_message in
    let s_inv := inv (sg_s sign) (cn c) in
    let u1 := rem_euclid (z * s_inv) (cn c) in
    let u2 := rem_euclid (sg_r sign * s_inv) (cn c) in
    let! res1 := ec_multiply (cg c) u1 c in
    let! res2 := ec_multiply q u2 c in
    let! res := ec_add_points res1 res2 c in
    let x := rem_euclid (px res) (cn c) in
    let y := rem_euclid (py res) (cn c) in
    if (x =? 0) && (y =? 0) then Ok false
    else if negb (x =? sg_r sign) then Ok false
    else Ok true.

(** Model of the compressed (de)serialisation of Ciphertext and Key derived by ark-serialize
    (packages/zkenc-core/src/data_structures.rs:16-67; used at zkenc-cli/src/commands.rs:71-91,
    133-134, 210-212, 366-367, zkenc-js/src/lib.rs:421-431, 463-464, 481-486).
    ark-serialize is an external crate: a Vec is its length as a u64 (little endian) followed by
    the elements, a struct is its fields in order, a scalar is 32 canonical bytes.  Curve points
    are a parameter: any fixed-length encoding that its own decoder inverts.
    Not modelled: the memory that Vec::deserialize reserves up front. *)
From Coq Require Import List Bool Arith NArith ZArith Lia.
From Coq Require Import Strings.Byte.
From Verif Require Import Res Bytes Reader Fld Groups Bn254 Core Wtns.
Import ListNotations.
Local Open Scope N_scope.
Local Open Scope rd_scope.

(** Compressed points of E: G1 in 32 bytes, G2 in 64 bytes (BN254); the decoder includes the
    curve and subgroup checks of Validate::Yes. *)
Record codecT (E : pairingT Fr) := CodecT {
  enc1 : G1 E -> list byte;
  dec1 : list byte -> option (G1 E);
  enc2 : G2 E -> list byte;
  dec2 : list byte -> option (G2 E);
  enc1_len : forall p, length (enc1 p) = 32%nat;
  enc2_len : forall p, length (enc2 p) = 64%nat;
  dec1_enc1 : forall p, dec1 (enc1 p) = Some p;
  dec2_enc2 : forall p, dec2 (enc2 p) = Some p
}.
Arguments enc1 {E}. Arguments dec1 {E}. Arguments enc2 {E}. Arguments dec2 {E}.

(** Scalars: serialize_compressed of Fr. *)
Definition fr_bytes (x : Fr) : list byte := le_bytes 32 (Z.to_N (fr_val x)).

(** Vec<T>: data_structures.rs:29-38, 48. *)
Definition vec_bytes {A} (enc : A -> list byte) (l : list A) : list byte :=
  le_bytes 8 (N.of_nat (length l)) ++ concat (map enc l).

(** The reader is the remaining input (a [&[u8]]); every failure is the one error value. *)
Definition Ds A := M (list byte) unit A.
Definition ds_take (n : nat) : Ds (list byte) := fun bs =>
  if Nat.ltb (length bs) n then (Err tt, bs) else (Ok (firstn n bs), skipn n bs).
Definition ds_opt {A} (x : option A) : Ds A := match x with Some a => ret a | None => fail tt end.
Definition ds_u64 : Ds N := do b <- ds_take 8 ; ret (le_val b).
Definition ds_elem {A} (size : nat) (dec : list byte -> option A) : Ds A :=
  do b <- ds_take size ; ds_opt (dec b).
Definition ds_vec {A} (m : Ds A) : Ds (list A) := do n <- ds_u64 ; mmany n m.

Section ArkSer.
  Context (E : pairingT Fr) (C : codecT E).

  (** derive(CanonicalSerialize) on EncapKey and Ciphertext (data_structures.rs:16-49). *)
  Definition ek_bytes (k : encap_key Fr E) : list byte :=
    enc1 C (alpha_g1 k) ++ enc2 C (beta_g2 k) ++ enc2 C (delta_g2 k) ++
    vec_bytes (enc1 C) (r_u_query_g1 k) ++ vec_bytes (enc2 C) (r_v_query_g2 k) ++
    vec_bytes (enc1 C) (phi_delta_query_g1 k) ++ vec_bytes (enc1 C) (h_query_g1 k).
  Definition ct_bytes (c : ciphertext Fr E) : list byte :=
    ek_bytes (ct_key c) ++ vec_bytes fr_bytes (public_inputs c).

  (** derive(CanonicalDeserialize). *)
  Definition ds_g1 : Ds (G1 E) := ds_elem 32 (dec1 C).
  Definition ds_g2 : Ds (G2 E) := ds_elem 64 (dec2 C).
  Definition ds_fr : Ds Fr := ds_elem 32 fr_deserialize.
  Definition ds_ek : Ds (encap_key Fr E) :=
    do a <- ds_g1 ; do b <- ds_g2 ; do d <- ds_g2 ;
    do ru <- ds_vec ds_g1 ; do rv <- ds_vec ds_g2 ; do ph <- ds_vec ds_g1 ; do h <- ds_vec ds_g1 ;
    ret (EncapKey a b d ru rv ph h).
  Definition ds_ct : Ds (ciphertext Fr E) :=
    do k <- ds_ek ; do pub <- ds_vec ds_fr ; ret (Ciphertext k pub).

  (** Ciphertext::deserialize_compressed(&bytes[..]): the value and the unread bytes. *)
  Definition ct_deserialize (bs : list byte) : option (ciphertext Fr E * list byte) :=
    match ds_ct bs with (Ok c, rest) => Some (c, rest) | _ => None end.
End ArkSer.
Arguments ek_bytes {E}. Arguments ct_bytes {E}. Arguments ct_deserialize {E}.

(** Key: [u8; 32] is written element by element (data_structures.rs:53-54). *)
Definition key_bytes (k : list byte) : list byte := k.

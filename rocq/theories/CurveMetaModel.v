(* Looking up a curve by name and choosing the library that serves it:
   yacl/crypto/ecc/curve_meta.{h,cc}, ecc/ecc_spi.cc and the seven factories
   under ecc/.  The registry itself is SpiModel.

   Simplified: a std::map is an association list whose first entry for a key
   counts (only find and insert-if-absent are used); absl::AsciiStrToLower works
   byte by byte; the group a factory returns is reduced to the library that made
   it, the metadata it was given and the class chosen.  Not modelled: the curve
   constants handed to the classes, mcl's initCurve and its check that the
   generator is not zero.  OpenSSL's EC_GROUP_new_by_curve_name and the presence
   of a GPU are arguments. *)
From Coq Require Import ZArith Ascii String List Arith Bool.
From Verif Require Import LinCodeModel SpiModel.
Import ListNotations.
Local Open Scope nat_scope.

(* curve_meta.h:34-62. *)
Inductive curve_form := Weierstrass | Montgomery | Edwards | TwistedEdwards.
Inductive field_type := Prime | Binary | Extension.

Definition form_eqb (a b : curve_form) : bool :=
  match a, b with
  | Weierstrass, Weierstrass | Montgomery, Montgomery
  | Edwards, Edwards | TwistedEdwards, TwistedEdwards => true
  | _, _ => false
  end.
Definition field_eqb (a b : field_type) : bool :=
  match a, b with
  | Prime, Prime | Binary, Binary | Extension, Extension => true
  | _, _ => false
  end.

(* curve_meta.h:64-72. *)
Record meta := mk {
  m_name : string;
  m_aliases : list string;
  m_form : curve_form;
  m_field : field_type;
  m_bits : N;
}.

(* absl::AsciiStrToLower: bytes 'A'..'Z' gain 32. *)
Definition lower_char (c : ascii) : ascii :=
  let n := N_of_ascii c in
  if ((65 <=? n) && (n <=? 90))%N then ascii_of_N (n + 32) else c.
Fixpoint lower_str (s : string) : string :=
  match s with
  | EmptyString => EmptyString
  | String c s' => String (lower_char c) (lower_str s')
  end.

(* curve_meta.cc:839, LowerName. *)
Definition lower_name (m : meta) : string := lower_str (m_name m).

(* curve_meta.cc:841-844, IsEquivalent. *)
Definition is_equivalent (a b : meta) : bool :=
  form_eqb (m_form a) (m_form b) && field_eqb (m_field a) (m_field b)
  && (m_bits a =? m_bits b)%N.

Definition cmap := list (string * meta).
Fixpoint cfind (k : string) (l : cmap) : option meta :=
  match l with
  | [] => None
  | (k', m) :: l' => if String.eqb k k' then Some m else cfind k l'
  end.

(* curve_meta.cc:848-858, the lambda insert of BuildMap. *)
Definition insert_name (res : cmap) (nm : string) (m : meta) : outcome cmap :=
  let n := lower_str nm in
  match cfind n res with
  | None => Val (res ++ [(n, m)])
  | Some m' => if is_equivalent m' m then Val res else Thrown
  end.

Fixpoint insert_all (res : cmap) (ns : list string) (m : meta) : outcome cmap :=
  match ns with
  | [] => Val res
  | n :: ns' => bind (insert_name res n m) (fun res' => insert_all res' ns' m)
  end.

(* curve_meta.cc:846-867, BuildMap: a curve's name, then its aliases. *)
Fixpoint build_from (res : cmap) (tbl : list meta) : outcome cmap :=
  match tbl with
  | [] => Val res
  | m :: tbl' =>
      bind (insert_name res (m_name m) m) (fun res1 =>
      bind (insert_all res1 (m_aliases m) m) (fun res2 => build_from res2 tbl'))
  end.
Definition build_map (tbl : list meta) : outcome cmap := build_from [] tbl.

(* curve_meta.cc:869-875, GetCurveMetaByName.  The static map is built at the
   first call; a build that throws is tried again, and throws again. *)
Definition get_meta_by_name (tbl : list meta) (n : string) : outcome meta :=
  bind (build_map tbl) (fun mp =>
    match cfind (lower_str n) mp with None => Thrown | Some m => Val m end).

(* curve_meta.cc:30-837, kPredefinedCurves. *)
Local Open Scope string_scope.
Definition predefined_curves : list meta :=
  [
   mk "secp112r1" ["wap-wsg-idm-ecid-wtls6"] Weierstrass Prime 56;
   mk "secp112r2" [] Weierstrass Prime 56;
   mk "secp128r1" [] Weierstrass Prime 64;
   mk "secp128r2" [] Weierstrass Prime 64;
   mk "secp160k1" ["ansip160k1"] Weierstrass Prime 80;
   mk "secp160r1" ["wap-wsg-idm-ecid-wtls7"; "ansip160r1"] Weierstrass Prime 80;
   mk "secp160r2" ["ansip160r2"] Weierstrass Prime 80;
   mk "secp192k1" ["ansip192k1"] Weierstrass Prime 96;
   mk "secp192r1" ["P-192"; "prime192v1"] Weierstrass Prime 96;
   mk "secp224k1" ["ansip224k1"] Weierstrass Prime 112;
   mk "secp224r1" ["P-224"; "wap-wsg-idm-ecid-wtls12"; "ansip224r1"] Weierstrass Prime 112;
   mk "secp256k1" ["ansip256k1"] Weierstrass Prime 128;
   mk "secp256r1" ["P-256"; "prime256v1"] Weierstrass Prime 128;
   mk "secp384r1" ["P-384"; "ansip384r1"] Weierstrass Prime 192;
   mk "secp521r1" ["P-521"; "ansip521r1"] Weierstrass Prime 260;
   mk "sect113r1" ["wap-wsg-idm-ecid-wtls4"] Weierstrass Binary 56;
   mk "sect113r2" [] Weierstrass Binary 56;
   mk "sect131r1" [] Weierstrass Binary 65;
   mk "sect131r2" [] Weierstrass Binary 65;
   mk "sect163k1" ["K-163"; "ansit163k1"; "wap-wsg-idm-ecid-wtls3"] Weierstrass Binary 81;
   mk "sect163r1" ["ansit163r1"] Weierstrass Binary 81;
   mk "sect163r2" ["B-163"; "ansit163r2"] Weierstrass Binary 81;
   mk "sect193r1" ["ansit193r1"] Weierstrass Binary 96;
   mk "sect193r2" ["ansit193r2"] Weierstrass Binary 96;
   mk "sect233k1" ["K-233"; "wap-wsg-idm-ecid-wtls10"; "ansit233k1"] Weierstrass Binary 116;
   mk "sect233r1" ["B-233"; "wap-wsg-idm-ecid-wtls11"; "ansit233r1"] Weierstrass Binary 116;
   mk "sect239k1" ["ansit239k1"] Weierstrass Binary 119;
   mk "sect283k1" ["K-283"; "ansit283k1"] Weierstrass Binary 141;
   mk "sect283r1" ["B-283"; "ansit283r1"] Weierstrass Binary 141;
   mk "sect409k1" ["K-409"; "ansit409k1"] Weierstrass Binary 204;
   mk "sect409r1" ["B-409"; "ansit409r1"] Weierstrass Binary 204;
   mk "sect571k1" ["K-571"; "ansit571k1"] Weierstrass Binary 285;
   mk "sect571r1" ["B-571"; "ansit571r1"] Weierstrass Binary 285;
   mk "SM2" [] Weierstrass Prime 128;
   mk "ansit163k1" [] Weierstrass Binary 81;
   mk "ansit163r1" ["sect163r1"] Weierstrass Binary 81;
   mk "ansit163r2" ["sect163r2"; "B-163"] Weierstrass Binary 81;
   mk "ansit193r1" ["sect193r1"] Weierstrass Binary 96;
   mk "ansit193r2" ["sect193r2"] Weierstrass Binary 96;
   mk "ansit233k1" ["sect233k1"; "K-233"; "wap-wsg-idm-ecid-wtls10"] Weierstrass Binary 116;
   mk "ansit233r1" ["wap-wsg-idm-ecid-wtls11"; "B-233"; "sect233r1"] Weierstrass Binary 116;
   mk "ansit239k1" ["sect239k1"] Weierstrass Binary 119;
   mk "ansit283k1" ["K-283"; "sect283k1"] Weierstrass Binary 141;
   mk "ansit283r1" ["B-283"; "sect283r1"] Weierstrass Binary 141;
   mk "ansit409k1" ["K-409"; "sect409k1"] Weierstrass Binary 204;
   mk "ansit409r1" ["B-409"; "sect409r1"] Weierstrass Binary 204;
   mk "ansit571k1" ["K-571"; "sect571k1"] Weierstrass Binary 285;
   mk "ansit571r1" ["B-571"; "sect571r1"] Weierstrass Binary 285;
   mk "ansip160k1" ["secp160k1"] Weierstrass Prime 80;
   mk "ansip160r1" ["secp160r1"; "wap-wsg-idm-ecid-wtls7"] Weierstrass Prime 80;
   mk "ansip160r2" ["secp160r2"] Weierstrass Prime 80;
   mk "ansip192k1" ["secp192k1"] Weierstrass Prime 96;
   mk "ansip224k1" ["secp224k1"] Weierstrass Prime 112;
   mk "ansip224r1" ["wap-wsg-idm-ecid-wtls12"; "P-224"; "secp224r1"] Weierstrass Prime 112;
   mk "ansip256k1" ["secp256k1"] Weierstrass Prime 128;
   mk "ansip384r1" ["secp384r1"; "P-384"] Weierstrass Prime 192;
   mk "ansip521r1" ["secp521r1"; "P-521"] Weierstrass Prime 260;
   mk "prime192v1" ["secp192r1"; "P-192"] Weierstrass Prime 96;
   mk "prime192v2" [] Weierstrass Prime 96;
   mk "prime192v3" [] Weierstrass Prime 96;
   mk "prime239v1" [] Weierstrass Prime 119;
   mk "prime239v2" [] Weierstrass Prime 119;
   mk "prime239v3" [] Weierstrass Prime 119;
   mk "prime256v1" ["secp256r1"; "P-256"] Weierstrass Prime 128;
   mk "c2pnb176w1" [] Weierstrass Binary 88;
   mk "c2pnb163v1" ["wap-wsg-idm-ecid-wtls5"] Weierstrass Binary 81;
   mk "c2pnb163v2" [] Weierstrass Binary 81;
   mk "c2pnb163v3" [] Weierstrass Binary 81;
   mk "c2pnb208w1" [] Weierstrass Binary 104;
   mk "c2tnb191v3" [] Weierstrass Binary 95;
   mk "c2tnb191v2" [] Weierstrass Binary 95;
   mk "c2tnb191v1" [] Weierstrass Binary 95;
   mk "c2tnb239v3" [] Weierstrass Binary 119;
   mk "c2tnb239v2" [] Weierstrass Binary 119;
   mk "c2tnb239v1" [] Weierstrass Binary 119;
   mk "c2pnb272w1" [] Weierstrass Binary 136;
   mk "c2pnb304w1" [] Weierstrass Binary 152;
   mk "c2pnb368w1" [] Weierstrass Binary 184;
   mk "c2tnb359v1" [] Weierstrass Binary 179;
   mk "c2tnb431r1" [] Weierstrass Binary 215;
   mk "c2onb191v4" [] Weierstrass Binary 95;
   mk "c2onb191v5" [] Weierstrass Binary 95;
   mk "c2onb239v4" [] Weierstrass Binary 119;
   mk "c2onb239v5" [] Weierstrass Binary 119;
   mk "gost256" [] Weierstrass Prime 128;
   mk "gost512" [] Weierstrass Prime 256;
   mk "id-tc26-gost-3410-12-512-paramSetA" [] Weierstrass Prime 256;
   mk "id-tc26-gost-3410-12-512-paramSetB" [] Weierstrass Prime 256;
   mk "id-GostR3410-2001-CryptoPro-A-ParamSet" [] Weierstrass Prime 128;
   mk "id-GostR3410-2001-CryptoPro-B-ParamSet" [] Weierstrass Prime 128;
   mk "id-GostR3410-2001-CryptoPro-C-ParamSet" [] Weierstrass Prime 128;
   mk "id-tc26-gost-3410-2012-256-paramSetA" [] TwistedEdwards Prime 128;
   mk "id-tc26-gost-3410-2012-512-paramSetC" [] TwistedEdwards Prime 256;
   mk "FRP256v1" [] Weierstrass Prime 128;
   mk "M-221" [] Montgomery Prime 110;
   mk "M-383" [] Montgomery Prime 191;
   mk "M-511" [] Montgomery Prime 255;
   mk "E-222" [] Edwards Prime 111;
   mk "E-382" [] Edwards Prime 191;
   mk "E-521" [] Edwards Prime 260;
   mk "Curve25519" [] Montgomery Prime 127;
   mk "Curve448" [] Montgomery Prime 224;
   mk "Curve22103" [] Weierstrass Prime 110;
   mk "Curve4417" [] Weierstrass Prime 113;
   mk "Curve1174" [] Weierstrass Prime 125;
   mk "Curve67254" [] Weierstrass Prime 191;
   mk "Curve383187" [] Montgomery Prime 141;
   mk "Ed25519" [] TwistedEdwards Prime 127;
   mk "Ristretto255" [] TwistedEdwards Prime 127;
   mk "Ed448" [] TwistedEdwards Prime 224;
   mk "Ed448-Goldilocks" [] TwistedEdwards Prime 224;
   mk "Curve41417" [] TwistedEdwards Prime 207;
   mk "Fp254BNa" [] Weierstrass Prime 127;
   mk "Fp254n2BNa" [] Weierstrass Extension 254;
   mk "Fp254BNb" ["bn254"] Weierstrass Prime 100;
   mk "Fp224BN" [] Weierstrass Prime 112;
   mk "Fp256BN" [] Weierstrass Prime 128;
   mk "Fp384BN" [] Weierstrass Prime 192;
   mk "Fp512BN" [] Weierstrass Prime 256;
   mk "ssc-160" [] Weierstrass Prime 80;
   mk "ssc-192" [] Weierstrass Prime 96;
   mk "ssc-224" [] Weierstrass Prime 112;
   mk "ssc-256" [] Weierstrass Prime 128;
   mk "ssc-288" [] Weierstrass Prime 144;
   mk "ssc-320" [] Weierstrass Prime 160;
   mk "ssc-384" [] Weierstrass Prime 192;
   mk "ssc-512" [] Weierstrass Prime 256;
   mk "Tweedledum" [] Weierstrass Prime 127;
   mk "Tweedledee" [] Weierstrass Prime 127;
   mk "JubJub" [] TwistedEdwards Prime 127;
   mk "Pallas" [] Weierstrass Prime 127;
   mk "Vesta" [] Weierstrass Prime 127;
   mk "MDC201601" [] Edwards Prime 128;
   mk "BADA55-R-256" [] Weierstrass Prime 128;
   mk "BADA55-VR-224" [] Weierstrass Prime 112;
   mk "BADA55-VR-256" [] Weierstrass Prime 128;
   mk "BADA55-VR-384" [] Weierstrass Prime 192;
   mk "BADA55-VPR-224" [] Weierstrass Prime 112;
   mk "BADA55-VPR2-224" [] Weierstrass Prime 112;
   mk "P-192" ["secp192r1"; "prime192v1"] Weierstrass Prime 96;
   mk "P-224" ["secp224r1"; "wap-wsg-idm-ecid-wtls12"; "ansip224r1"] Weierstrass Prime 112;
   mk "P-256" ["secp256r1"; "prime256v1"] Weierstrass Prime 128;
   mk "P-384" ["secp384r1"; "ansip384r1"] Weierstrass Prime 192;
   mk "P-521" ["secp521r1"; "ansip521r1"] Weierstrass Prime 260;
   mk "K-163" ["sect163k1"] Weierstrass Binary 81;
   mk "B-163" ["sect163r2"; "ansit163r2"] Weierstrass Binary 81;
   mk "K-233" ["sect233k1"; "wap-wsg-idm-ecid-wtls10"; "ansit233k1"] Weierstrass Binary 116;
   mk "B-233" ["sect233r1"; "wap-wsg-idm-ecid-wtls11"; "ansit233r1"] Weierstrass Binary 116;
   mk "K-283" ["sect283k1"; "ansit283k1"] Weierstrass Binary 141;
   mk "B-283" ["sect283r1"; "ansit283r1"] Weierstrass Binary 141;
   mk "K-409" ["sect409k1"; "ansit409k1"] Weierstrass Binary 204;
   mk "B-409" ["sect409r1"; "ansit409r1"] Weierstrass Binary 204;
   mk "K-571" ["sect571k1"; "ansit571k1"] Weierstrass Binary 285;
   mk "B-571" ["sect571r1"; "ansit571r1"] Weierstrass Binary 285;
   mk "mnt1" [] Weierstrass Prime 85;
   mk "mnt2/1" [] Weierstrass Prime 79;
   mk "mnt2/2" [] Weierstrass Prime 79;
   mk "mnt3/1" [] Weierstrass Prime 80;
   mk "mnt3/2" [] Weierstrass Prime 80;
   mk "mnt3/3" [] Weierstrass Prime 80;
   mk "mnt4" [] Weierstrass Prime 120;
   mk "mnt5/1" [] Weierstrass Prime 120;
   mk "mnt5/2" [] Weierstrass Prime 120;
   mk "mnt5/3" [] Weierstrass Prime 120;
   mk "BLS12-377" [] Weierstrass Prime 128;
   mk "BLS12-381" [] Weierstrass Prime 128;
   mk "BLS12-446" [] Weierstrass Prime 128;
   mk "BLS12-455" [] Weierstrass Prime 128;
   mk "BLS12-638" [] Weierstrass Prime 128;
   mk "BLS24-477" [] Weierstrass Prime 192;
   mk "Bandersnatch" [] TwistedEdwards Prime 128;
   mk "bn158" [] Weierstrass Prime 70;
   mk "bn190" [] Weierstrass Prime 80;
   mk "bn222" [] Weierstrass Prime 80;
   mk "bn254" ["Fp254BNb"] Weierstrass Prime 100;
   mk "bn_snark1" [] Weierstrass Prime 100;
   mk "bn286" [] Weierstrass Prime 100;
   mk "bn318" [] Weierstrass Prime 100;
   mk "bn350" [] Weierstrass Prime 100;
   mk "bn382" [] Weierstrass Prime 100;
   mk "bn414" [] Weierstrass Prime 100;
   mk "bn446" [] Weierstrass Prime 128;
   mk "bn478" [] Weierstrass Prime 128;
   mk "bn510" [] Weierstrass Prime 128;
   mk "bn542" [] Weierstrass Prime 128;
   mk "bn574" [] Weierstrass Prime 128;
   mk "bn606" [] Weierstrass Prime 128;
   mk "bn638" [] Weierstrass Prime 128;
   mk "wap-wsg-idm-ecid-wtls1" [] Weierstrass Binary 56;
   mk "wap-wsg-idm-ecid-wtls3" ["K-163"; "sect163k1"; "ansit163k1"] Weierstrass Binary 81;
   mk "wap-wsg-idm-ecid-wtls4" ["sect113r1"] Weierstrass Binary 56;
   mk "wap-wsg-idm-ecid-wtls5" ["c2pnb163v1"] Weierstrass Binary 81;
   mk "wap-wsg-idm-ecid-wtls6" ["secp112r1"] Weierstrass Prime 56;
   mk "wap-wsg-idm-ecid-wtls7" ["secp160r1"; "ansip160r1"] Weierstrass Prime 80;
   mk "wap-wsg-idm-ecid-wtls8" [] Weierstrass Prime 56;
   mk "wap-wsg-idm-ecid-wtls9" [] Weierstrass Prime 80;
   mk "wap-wsg-idm-ecid-wtls10" ["sect233k1"; "K-233"; "ansit233k1"] Weierstrass Binary 116;
   mk "wap-wsg-idm-ecid-wtls11" ["sect233r1"; "B-233"; "ansit233r1"] Weierstrass Binary 116;
   mk "wap-wsg-idm-ecid-wtls12" ["secp224r1"; "P-224"; "ansip224r1"] Weierstrass Prime 112;
   mk "Oakley Group 3" [] Weierstrass Binary 77;
   mk "Oakley Group 4" [] Weierstrass Binary 92;
   mk "192-bit Random ECP Group" [] Weierstrass Prime 96;
   mk "224-bit Random ECP Group" [] Weierstrass Prime 112;
   mk "256-bit Random ECP Group" [] Weierstrass Prime 128;
   mk "384-bit Random ECP Group" [] Weierstrass Prime 192;
   mk "521-bit Random ECP Group" [] Weierstrass Prime 260;
   mk "numsp256d1" [] Weierstrass Prime 128;
   mk "numsp256t1" [] TwistedEdwards Prime 128;
   mk "numsp384d1" [] Weierstrass Prime 192;
   mk "numsp384t1" [] TwistedEdwards Prime 192;
   mk "numsp512d1" [] Weierstrass Prime 256;
   mk "numsp512t1" [] TwistedEdwards Prime 256;
   mk "ed-256-mont" [] TwistedEdwards Prime 128;
   mk "ed-254-mont" [] TwistedEdwards Prime 127;
   mk "ed-255-mers" [] TwistedEdwards Prime 127;
   mk "ed-384-mont" [] TwistedEdwards Prime 192;
   mk "ed-382-mont" [] TwistedEdwards Prime 191;
   mk "ed-383-mers" [] TwistedEdwards Prime 191;
   mk "ed-512-mont" [] TwistedEdwards Prime 256;
   mk "ed-510-mont" [] TwistedEdwards Prime 255;
   mk "ed-511-mers" [] TwistedEdwards Prime 255;
   mk "w-256-mont" [] Weierstrass Prime 128;
   mk "w-254-mont" [] Weierstrass Prime 127;
   mk "w-255-mers" [] Weierstrass Prime 127;
   mk "w-384-mont" [] Weierstrass Prime 192;
   mk "w-382-mont" [] Weierstrass Prime 191;
   mk "w-383-mers" [] Weierstrass Prime 191;
   mk "w-512-mont" [] Weierstrass Prime 256;
   mk "w-510-mont" [] Weierstrass Prime 255;
   mk "w-511-mers" [] Weierstrass Prime 255;
   mk "brainpoolP160r1" [] Weierstrass Prime 80;
   mk "brainpoolP160t1" [] Weierstrass Prime 80;
   mk "brainpoolP192r1" [] Weierstrass Prime 96;
   mk "brainpoolP192t1" [] Weierstrass Prime 96;
   mk "brainpoolP224r1" [] Weierstrass Prime 112;
   mk "brainpoolP224t1" [] Weierstrass Prime 112;
   mk "brainpoolP256r1" [] Weierstrass Prime 128;
   mk "brainpoolP256t1" [] Weierstrass Prime 128;
   mk "brainpoolP320r1" [] Weierstrass Prime 160;
   mk "brainpoolP320t1" [] Weierstrass Prime 160;
   mk "brainpoolP384r1" [] Weierstrass Prime 192;
   mk "brainpoolP384t1" [] Weierstrass Prime 192;
   mk "brainpoolP512r1" [] Weierstrass Prime 256;
   mk "brainpoolP512t1" [] Weierstrass Prime 256;
   mk "FourQ" [] TwistedEdwards Extension 128
  ].

(* The group a factory returns: the library, the class and the metadata. *)
Inductive group_class :=
| CFourQ | CLib25519Ed | CSodiumEd | CSodiumX | CSodiumRistretto | CCudaSm2
| CMcl (curve : string) | COpenssl (curve : string) | CToyX | CToyWeierstrass.
Record group := { g_class : group_class; g_meta : meta }.

(* A library as handed to REGISTER_EC_LIBRARY (ecc_spi.h:362-364). *)
Record ec_lib := {
  l_name : string;
  l_perf : Z;
  l_supported : meta -> bool;
  l_create : meta -> outcome group;
}.

Fixpoint mem (s : string) (l : list string) : bool :=
  match l with [] => false | x :: l' => String.eqb s x || mem s l' end.

(* FourQlib/FourQ_factory.cc:21-31. *)
Definition fourq_lib : ec_lib := {|
  l_name := "FourQlib"; l_perf := 1500;
  l_supported m := String.eqb (lower_name m) "fourq";
  l_create m :=
    if String.eqb (lower_name m) "fourq"
    then Val {| g_class := CFourQ; g_meta := m |} else Thrown;
|}.

(* lib25519/lib25519_factory.cc:22-46. *)
Definition lib25519_curves : list string := ["ed25519"].
Definition lib25519_lib : ec_lib := {|
  l_name := "lib25519"; l_perf := 1000;
  l_supported m := mem (lower_name m) lib25519_curves;
  l_create m :=
    if mem (lower_name m) lib25519_curves then
      if String.eqb (lower_name m) "ed25519"
      then Val {| g_class := CLib25519Ed; g_meta := m |} else Thrown
    else Thrown;
|}.

(* libsodium/sodium_factory.cc:26-66. *)
Definition sodium_curves : list string := ["ed25519"; "curve25519"; "ristretto255"].
Definition sodium_lib : ec_lib := {|
  l_name := "libsodium"; l_perf := 800;
  l_supported m := mem (lower_name m) sodium_curves;
  l_create m :=
    if mem (lower_name m) sodium_curves then
      if String.eqb (lower_name m) "ed25519"
      then Val {| g_class := CSodiumEd; g_meta := m |}
      else if String.eqb (lower_name m) "curve25519"
      then Val {| g_class := CSodiumX; g_meta := m |}
      else if String.eqb (lower_name m) "ristretto255"
      then Val {| g_class := CSodiumRistretto; g_meta := m |}
      else Thrown
    else Thrown;
|}.

(* cuda/cuda_sm2_factory.cc:22 and cuda_sm2_group.cc:165-174.  Here the name is
   compared as it stands, and Create checks nothing. *)
Definition cuda_lib (gpu : bool) : ec_lib := {|
  l_name := "CUDA_SM2"; l_perf := 500;
  l_supported m :=
    if negb (String.eqb (m_name m) "SM2") && negb (String.eqb (m_name m) "sm2")
    then false else gpu;
  l_create m := Val {| g_class := CCudaSm2; g_meta := m |};
|}.

(* mcl/mcl_ec_factory.cc:19-30: the keys of Name2MclCurveEnum and the cases of
   the switch at 48-58, one per key. *)
Definition mcl_curves : list string :=
  ["secp192k1"; "secp224k1"; "secp256k1"; "secp384r1"; "secp192r1"; "secp224r1";
   "secp256r1"; "secp160k1"].
Definition mcl_cases : list string :=
  ["secp160k1"; "secp192k1"; "secp224k1"; "secp256k1"; "secp384r1"; "secp192r1";
   "secp224r1"; "secp256r1"].
Definition mcl_lib : ec_lib := {|
  l_name := "libmcl"; l_perf := 400;
  l_supported m := mem (lower_name m) mcl_curves;
  l_create m :=
    if mem (lower_name m) mcl_curves then
      if mem (lower_name m) mcl_cases
      then Val {| g_class := CMcl (lower_name m); g_meta := m |} else Thrown
    else Thrown;
|}.

(* openssl/openssl_factory.cc:47-136: the keys of kName2Nid. *)
Definition openssl_curves : list string :=
  ["secp112r1";
   "secp112r2";
   "secp128r1";
   "secp128r2";
   "secp160k1";
   "secp160r1";
   "secp160r2";
   "secp192k1";
   "secp192r1";
   "secp224k1";
   "secp224r1";
   "secp256r1";
   "secp256k1";
   "secp384r1";
   "secp521r1";
   "prime192v2";
   "prime192v3";
   "prime239v1";
   "prime239v2";
   "prime239v3";
   "sect113r1";
   "sect113r2";
   "sect131r1";
   "sect131r2";
   "sect163k1";
   "sect163r1";
   "sect163r2";
   "sect193r1";
   "sect193r2";
   "sect233k1";
   "sect233r1";
   "sect239k1";
   "sect283k1";
   "sect283r1";
   "sect409k1";
   "sect409r1";
   "sect571k1";
   "sect571r1";
   "c2pnb163v1";
   "c2pnb163v2";
   "c2pnb163v3";
   "c2pnb176v1";
   "c2tnb191v1";
   "c2tnb191v2";
   "c2tnb191v3";
   "c2pnb208w1";
   "c2tnb239v1";
   "c2tnb239v2";
   "c2tnb239v3";
   "c2pnb272w1";
   "c2pnb304w1";
   "c2tnb359v1";
   "c2pnb368w1";
   "c2tnb431r1";
   "wap-wsg-idm-ecid-wtls1";
   "wap-wsg-idm-ecid-wtls3";
   "wap-wsg-idm-ecid-wtls4";
   "wap-wsg-idm-ecid-wtls5";
   "wap-wsg-idm-ecid-wtls6";
   "wap-wsg-idm-ecid-wtls7";
   "wap-wsg-idm-ecid-wtls8";
   "wap-wsg-idm-ecid-wtls9";
   "wap-wsg-idm-ecid-wtls10";
   "wap-wsg-idm-ecid-wtls11";
   "wap-wsg-idm-ecid-wtls12";
   "Oakley Group 3";
   "Oakley Group 4";
   "brainpoolp160r1";
   "brainpoolp160t1";
   "brainpoolp192r1";
   "brainpoolp192t1";
   "brainpoolp224r1";
   "brainpoolp224t1";
   "brainpoolp256r1";
   "brainpoolp256t1";
   "brainpoolp320r1";
   "brainpoolp320t1";
   "brainpoolp384r1";
   "brainpoolp384t1";
   "brainpoolp512r1";
   "brainpoolp512t1";
   "sm2"].

(* openssl/openssl_factory.cc:138-155.  [ec_group_ok k]: the library returns a
   group for the curve number of key [k]. *)
Definition openssl_lib (ec_group_ok : string -> bool) : ec_lib := {|
  l_name := "OpenSSL"; l_perf := 100;
  l_supported m := mem (lower_name m) openssl_curves;
  l_create m :=
    if mem (lower_name m) openssl_curves then
      if ec_group_ok (lower_name m)
      then Val {| g_class := COpenssl (lower_name m); g_meta := m |} else Thrown
    else Thrown;
|}.

(* toy/factory.cc:22-70. *)
Definition toy_curves : list string := ["secp256k1"; "sm2"; "curve25519"].
Definition toy_lib : ec_lib := {|
  l_name := "Toy"; l_perf := 10;
  l_supported m := mem (lower_name m) toy_curves;
  l_create m :=
    if mem (lower_name m) toy_curves then
      Val {| g_class := if form_eqb (m_form m) Montgomery then CToyX
                        else CToyWeierstrass;
             g_meta := m |}
    else Thrown;
|}.

Definition ec_libs (gpu : bool) (ec_group_ok : string -> bool) : list ec_lib :=
  [fourq_lib; lib25519_lib; sodium_lib; cuda_lib gpu; mcl_lib;
   openssl_lib ec_group_ok; toy_lib].

(* The registry keeps names as lists of byte values. *)
Definition bytes_of (s : string) : name :=
  map nat_of_ascii (list_ascii_of_string s).
Definition str_of (n : name) : string :=
  string_of_list_ascii (map ascii_of_nat n).

(* ecc_spi.cc:26-44, EcGroupFactory::Register: a name that cannot be looked up
   is not supported; arguments other than the library are ignored. *)
Definition ec_registration (tbl : list meta) (l : ec_lib) : registration group := {|
  r_name := bytes_of (l_name l);
  r_perf := l_perf l;
  r_check feature _ :=
    match get_meta_by_name tbl (str_of feature) with
    | Val m => l_supported l m
    | _ => false
    end;
  r_create feature _ :=
    bind (get_meta_by_name tbl (str_of feature)) (l_create l);
|}.

(* ecc_spi.h:29, EcGroupFactory::Instance().Create(name[, ArgLib = lib]) after
   the libraries [ls] have been registered, in that order. *)
Definition ec_create (tbl : list meta) (ls : list ec_lib) (feature : name) (a : args)
  : outcome group :=
  create (run (map (ec_registration tbl) ls)) feature a.

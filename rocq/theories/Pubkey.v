(** * Pubkey: parse/pubkey/*.go — algorithm-specific fields. *)
From Coq Require Import Strings.String Strings.Byte List NArith ZArith Bool.
From Verif Require Import Base Item Reader Context Env Values Monad.
Import ListNotations.

(** mpi, err := values.NewMPI(p.reader); item.Add(mpi.ToItem(name, p.cxt.Integer())) *)
Definition addMPI (o : opts) (name : bytes) : M unit :=
  let* m := newMPI in add (mpi_item name m (oInteger o)).

(** The same with flag.Name(alg) as name, parse_pub.go 102-110. *)
Definition addPoint (o : opts) (alg : bytes) : M unit :=
  let* m := newMPI in add (mpi_item (point_name alg (mpi_flag m)) m (oInteger o)).

(** NewOID and oid.ToItem(true), parse_pub.go 96-100. *)
Definition addOID : M unit :=
  let* oid := newOID in add (oid_item oid true).

(** result.NewItem(Name(name), Note("%d bytes", p.size), DumpStr(Dump(p.reader, p.cxt.Debug()))). *)
Definition addSized (o : opts) (size : Z) (name : bytes) : M unit :=
  let* d := dumpRest (oDebug o) in add (Item name [] d (n_bytes size) []).

(** "... (pub %d)": PubID has a String method but %d prints the number. *)
Definition with_pub (pre : bytes) (b : byte) : bytes := pre ++ str " (pub " ++ dec (b2n b) ++ str ")".

(** rsaPub, dsaPub, elgPub, parse_pub.go 36-93 *)
Definition rsaPub (o : opts) : M unit :=
  addMPI o (str "RSA public modulus n") ;; addMPI o (str "RSA public encryption exponent e").
Definition dsaPub (o : opts) : M unit :=
  addMPI o (str "DSA p") ;; addMPI o (str "DSA q (q is a prime divisor of p-1)") ;;
  addMPI o (str "DSA g") ;; addMPI o (str "DSA y (= g^x mod p where x is secret)").
Definition elgPub (o : opts) : M unit :=
  addMPI o (str "ElGamal prime p") ;; addMPI o (str "ElGamal group generator g") ;;
  addMPI o (str "ElGamal public key value y (= g^x mod p where x is secret)").

(** The KDF parameters item, parse_pub.go 116-133 *)
Definition kdf_item (o : opts) (ep : bytes) : item :=
  let i := ecparm_item (str "KDF parameters") ep (oInteger o) in
  match ep with
  | e0 :: t =>
    if (b2n e0 =? 1)%N then
      match t with
      | e1 :: e2 :: _ => add_child (sym_item e2 (oDebug o)) (add_child (hash_item e1 (oDebug o)) i)
      | _ => w_value sUnknown i
      end
    else w_value sUnknown i
  | [] => w_value sUnknown i
  end.

(** ecdhPub, ecdsaPub, eddsaPub, parse_pub.go 95-174 *)
Definition ecdhPub (o : opts) : M unit :=
  addOID ;; addPoint o (str "ECDH") ;;
  let* ep := newECParm in add (kdf_item o ep).
Definition ecdsaPub (o : opts) : M unit := addOID ;; addPoint o (str "ECDSA").
Definition eddsaPub (o : opts) : M unit := addOID ;; addPoint o (str "EdDSA").

(** ParsePub, parse_pub.go 12-34; p.size is Rest() when New is called, pubkey.go 18-20. *)
Definition parsePub (o : opts) (pub : byte) : M unit :=
  let* size := rdRest in
  if isRSA pub then rsaPub o
  else if isDSA pub then dsaPub o
  else if isElgamal pub then elgPub o
  else if isECDH pub then ecdhPub o
  else if isECDSA pub then ecdsaPub o
  else if isEdDSA pub then eddsaPub o
  else addSized o size (with_pub (str "Multi-precision integers of Unknown") pub).

(** ParseSecEnc, parse_secenc.go 13-62 *)
Definition secenc_name (pub : byte) : bytes :=
  if isRSA pub then str "RSA encrypted key (d, p, q, u)"
  else if isDSA pub then str "DSA encrypted key"
  else if isElgamal pub then str "Elgamal encrypted key"
  else if isECDH pub then str "ECDH encrypted key"
  else if isECDSA pub then str "ECDSA encrypted key"
  else if isEdDSA pub then str "EdDSA encrypted key"
  else with_pub (str "Multi-precision integers of unknown encrypted key") pub.
Definition parseSecEnc (o : opts) (pub : byte) : M unit :=
  let* size := rdRest in
  addSized o size (secenc_name pub) ;;
  let* _ := rdSeek 0 2 in ret tt.

(** rsaSec ... eddsaSec, parse_secplain.go 53-120, and the default case 38-48 *)
Definition rsaSec (o : opts) : M unit :=
  addMPI o (str "RSA secret exponent d") ;; addMPI o (str "RSA secret prime value p") ;;
  addMPI o (str "RSA secret prime value q (p < q)") ;;
  addMPI o (str "RSA u, the multiplicative inverse of p, mod q").
Definition unknownSec (o : opts) (size : Z) (pub : byte) : M unit :=
  let length := (size - 2)%Z in
  let* b := rdBytes length in
  add (Item (with_pub (str "Multi-precision integers of unknown secret key") pub) []
            (dump_bytes b (oDebug o)) (n_bytes length) []).
(** ParseSecPlain, parse_secplain.go 12-51 *)
Definition parseSecPlain (o : opts) (pub : byte) : M unit :=
  let* size := rdRest in
  if isRSA pub then rsaSec o
  else if isDSA pub then addMPI o (str "DSA secret exponent x")
  else if isElgamal pub then addMPI o (str "ElGamal secret exponent x")
  else if isECDH pub then addMPI o (str "ECDH secret key")
  else if isECDSA pub then addMPI o (str "ECDSA secret key")
  else if isEdDSA pub then addMPI o (str "EdDSA secret key")
  else unknownSec o size pub.

(** ParseSes, parse_ses.go 12-88 *)
Definition parseSes (o : opts) (pub : byte) : M unit :=
  let* size := rdRest in
  if isRSA pub then
    addMPI o (str "RSA m^e mod n; m = sym alg(1 byte) + checksum(2 bytes) + PKCS#1 block encoding EME-PKCS1-v1_5")
  else if isDSA pub then addSized o size (str "Multi-precision integers of DSA")
  else if isElgamal pub then
    addMPI o (str "ElGamal g^k mod p") ;;
    addMPI o (str "ElGamal m * y^k mod p; m = sym alg(1 byte) + checksum(2 bytes) + PKCS#1 block encoding EME-PKCS1-v1_5")
  else if isECDH pub then
    addPoint o (str "ECDH") ;;
    let* ep := newECParm in add (ecparm_item (str "symmetric key (encoded)") ep (oInteger o))
  else if isECDSA pub then addSized o size (str "Multi-precision integers of ECDSA")
  else if isEdDSA pub then addSized o size (str "Multi-precision integers of EdDSA")
  else addSized o size (with_pub (str "Multi-precision integers of Unknown") pub).

(** ParseSig, parse_sig.go 12-103 *)
Definition parseSig (o : opts) (pub : byte) : M unit :=
  let* size := rdRest in
  if isRSA pub then addMPI o (str "RSA signature value m^d mod n")
  else if isDSA pub then addMPI o (str "DSA value r") ;; addMPI o (str "DSA value s")
  else if isElgamal pub then
    addMPI o (str "ElGamal a = g^k mod p") ;; addMPI o (str "ElGamal b = (h - a*x)/k mod p - 1")
  else if isECDH pub then addSized o size (str "Multi-precision integers of ECDH")
  else if isECDSA pub then addMPI o (str "ECDSA value r") ;; addMPI o (str "ECDSA value s")
  else if isEdDSA pub then
    addMPI o (str "EC point r") ;; addMPI o (str "EdDSA value s in the little endian representation")
  else addSized o size (with_pub (str "Multi-precision integers of Unknown") pub).

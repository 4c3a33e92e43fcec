(** extrinsic.go:316-325: a decoded extrinsic as a map, by way of JSON.  The
    JSON round trip is the one of ModelBox.v. *)

From Verif Require Import GoBase ModelTools ModelVal ModelRegistry ModelDecode ModelBox ModelExtrinsic.

(** extrinsic.go:15-20 with its JSON names *)
Definition param_val (p : xparam) : val :=
  VMap [("name", VStr (xp_name p)); ("type", VStr (xp_type p)); ("type_name", VStr (xp_tyname p)); ("value", xp_value p)].
(** extrinsic.go:83-102 with its JSON names, as Process leaves it: Params is not
    nil (extrinsic.go:57), SignedExtensions is nil unless the extrinsic is signed
    (extrinsic.go:153, 205). *)
Definition generic_val (g : generic) : val :=
  VMap [("version_info", VStr (g_version g)); ("extrinsic_length", VInt (g_length g)); ("address_type", VStr (g_address_type g));
        ("tip", VDec (fst (g_tip g)) (snd (g_tip g)));
        ("signed_extensions", if String.eqb (g_version g) "84" || String.eqb (g_version g) "85" then VMap (g_exts g) else VNil);
        ("account_id", g_account g); ("signer", g_signer g); ("signature", VStr (g_signature g)); ("signature_raw", g_signature_raw g);
        ("nonce", VInt (g_nonce g)); ("era", VStr (g_era g)); ("extrinsic_hash", VStr (g_hash g));
        ("call_module_function", VStr (g_function g)); ("call_code", VStr (g_code g)); ("call_module", VStr (g_module g));
        ("params", VSlice (map param_val (g_params g))); ("params_raw", VStr (g_raw g)); ("transaction_extension_version", VInt (g_ext_version g))].
(** [None] is a nil map: an error of Marshal or, as the text is too deep, of
    Unmarshal.  (The other error of Unmarshal, a number beyond float64, needs an
    integer of more than 1000 bits.) *)
Definition ToMap (g : generic) : option val :=
  match marshal (generic_val g) with
  | Some j => if depth j <=? 10000 then unmarshal j else None
  | None => None
  end.

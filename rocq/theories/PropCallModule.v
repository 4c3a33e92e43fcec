(** C55, what round trips of calls cannot give. *)

From Verif Require Import GoBase SpecNum ProofsBase ModelTools ModelVal ModelRegistry ModelDecode ModelEncode ModelRegister SpecScale ProofsApi ProofsEncode PropRegistry PropData.

(** In the pallet Assets a Balance is decoded as a TAssetBalance (u64 in the
    shipped definitions), while Encode does not know the pallet and writes 16
    bytes: the call that was written is read back with another value for the
    argument after it, and with bytes left over. *)
Definition asset_call : callmod := CallMod "Assets" "mint" [("amount", "Balance"); ("id", "u32")].
Theorem C55_roundtrip_refuted : let md := [("3203", asset_call)] in
  exists r, RegCustomTypes 5 [("TAssetBalance", alias_entry "u64")] base_reg = Ok r /\
  Encodes (reg_env r) (-1) (Some md) "Call" (VBox "3203" [VStr "7"; VU32 9] []) "32030700000000000000000000000000000009000000" /\
  Decodes (reg_env r) (Ctx (-1) "" (Some md)) (HexToBytes "32030700000000000000000000000000000009000000") 0 "Call"
    (Ok (VMap [("call_index", VStr "3203"); ("call_name", VStr "mint"); ("call_module", VStr "Assets");
               ("params", VParams [(("amount", "Balance"), VU64 7); (("id", "u32"), VU32 0)])], 14, ["3203070000000000000000000000"])).
Proof.
  cbv zeta. eexists. split; [vm_compute; reflexivity|]. split.
  - apply (encode_enough _ _ _ _ _ 6); [vm_compute; reflexivity|discriminate].
  - split; [discriminate|]. exists 6%nat. vm_compute. reflexivity.
Qed.
Print Assumptions C55_roundtrip_refuted.

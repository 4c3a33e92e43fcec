(** Specification for C93: the shapes of SCALE types, and the byte strings of a
    shape.  Names of fields and variants are no part of a shape; the names that
    Compare distinguishes (an account and a 256-bit hash, say) are. *)

From Verif Require Import GoBase SpecNum SpecScale.

Inductive leaf :=
| LNull | LBool | LU8 | LU16 | LU32 | LU64 | LU128 | LI16 | LI32 | LI64 | LI128 | LI256
| LH160 | LH256 | LH512 | LAccount | LBytes | LString | LCompact64 | LCompact128 | LCompactBalance.
(** Fields and variants come in non-empty lists. *)
Inductive shape :=
| SLeaf (l : leaf) | SOption (s : shape) | SVec (s : shape) | SArray (n : positive) (s : shape)
| SMap (k v : shape) | SResult (ok err : shape) | SStruct (l : shapes) | SEnum (l : shapes)
with shapes := SOne (s : shape) | SMore (s : shape) (l : shapes).
Fixpoint list_of (l : shapes) : list shape := match l with SOne s => [s] | SMore s r => s :: list_of r end.

Definition fixed_width (n : Z) (b : bytes) : Prop := exists z, 0 <= z < 2 ^ (8 * n) /\ b = le_bytes (Z.to_nat n) z.
Definition signed_width (n : Z) (b : bytes) : Prop := exists z, - 2 ^ (8 * n - 1) < z < 2 ^ (8 * n - 1) /\ b = le_bytes (Z.to_nat n) z.
Definition prefixed (b : bytes) : Prop := exists d, Z.of_nat (List.length d) < 2 ^ 32 /\ b = (len_of d ++ d)%list.
Definition compact_below (n : Z) (b : bytes) : Prop := exists z, 0 <= z < n /\ b = compact z.
(** The byte strings of a leaf.  Left out: the largest number of a 128-bit type
    (decoded as -1 at type Balance) and the smallest of a signed one. *)
Definition leaf_wire (l : leaf) (b : bytes) : Prop :=
  match l with
  | LNull => b = []
  | LBool => b = [Zb 0] \/ b = [Zb 1]
  | LU8 => fixed_width 1 b | LU16 => fixed_width 2 b | LU32 => fixed_width 4 b | LU64 => fixed_width 8 b
  | LU128 => exists z, 0 <= z < 2 ^ 128 - 1 /\ b = le_bytes 16 z
  | LI16 => signed_width 2 b | LI32 => signed_width 4 b | LI64 => signed_width 8 b | LI128 => signed_width 16 b | LI256 => signed_width 32 b
  | LH160 => List.length b = 20%nat | LH256 | LAccount => List.length b = 32%nat | LH512 => List.length b = 64%nat
  | LBytes | LString => prefixed b
  | LCompact64 => compact_below (2 ^ 64) b | LCompact128 => compact_below (2 ^ 128) b | LCompactBalance => compact_below (2 ^ 128 - 1) b
  end.
(** The byte strings of a shape, up to the lengths the library accepts. *)
Inductive wire : shape -> bytes -> Prop :=
| wi_leaf l b : leaf_wire l b -> wire (SLeaf l) b
| wi_none s : wire (SOption s) [Zb 0]
| wi_some s b : wire s b -> wire (SOption s) (Zb 1 :: b)
| wi_vec s n b : Z.of_nat n <= 512 * 1024 -> wires (repeat s n) b -> wire (SVec s) (compact (Z.of_nat n) ++ b)
| wi_array n s b : wires (repeat s (Pos.to_nat n)) b -> wire (SArray n s) b
| wi_map k v n b : Z.of_nat n <= 1000 -> wires (List.concat (repeat [k; v] n)) b -> wire (SMap k v) (compact (Z.of_nat n) ++ b)
| wi_ok k e b : wire k b -> wire (SResult k e) (Zb 0 :: b)
| wi_err k e b : wire e b -> wire (SResult k e) (Zb 1 :: b)
| wi_struct l b : wires (list_of l) b -> wire (SStruct l) b
| wi_enum l i s b : nth_error (list_of l) i = Some s -> Z.of_nat i < 256 -> wire s b -> wire (SEnum l) (Zb (Z.of_nat i) :: b)
with wires : list shape -> bytes -> Prop :=
| ws_nil : wires [] []
| ws_cons s l b bs : wire s b -> wires l bs -> wires (s :: l) (b ++ bs).

Scheme wire_ind2 := Minimality for wire Sort Prop with wires_ind2 := Minimality for wires Sort Prop.
Combined Scheme wire_mutind from wire_ind2, wires_ind2.
Scheme shape_ind2 := Induction for shape Sort Prop with shapes_ind2 := Induction for shapes Sort Prop.
Combined Scheme shape_mutind from shape_ind2, shapes_ind2.

(** C59: hashing agrees with equality. *)
From Verif Require Import Base SpecBase Common Tim Hashes SpecHash HashFacts SpecHash2 HashFacts2.

(** For TIM elements that were received (or refer to any slice), that were made with [new_static], and
    that were made with [tim_bitmap!] *)
Theorem C59_partial : forall (cfg : Cfg),
  HashLaw te_eq feed_tim (with_bitmap of_slice) /\
  HashLaw te_eq feed_tim (with_bitmap by_new_static) /\
  HashLaw te_eq feed_tim (with_bitmap by_macro).
Proof. exact @tim_hash. Qed.
Print Assumptions C59_partial.
(** Not for all values: [StaticBitmap] has public fields, and two of them that differ behind the used
    part compare as equal, but hash differently. *)
Theorem C59_refuted : exists a b, te_eq a b = Ok true /\ feed_tim a <> feed_tim b /\
  (forall t, t = a \/ t = b -> exists array n, te_bitmap t = Some (mkTB 0%N (Some (BStatic array n))) /\ length array = 251).
Proof. exact @tim_hash_static. Qed.
Print Assumptions C59_refuted.
(** Nothing is left out: different elements of a kind pass different data to the hasher. *)
Theorem C59_distinct : forall (cfg : Cfg),
  HashDistinct feed_tim (with_bitmap of_slice) /\
  HashDistinct feed_tim (with_bitmap by_new_static) /\
  HashDistinct feed_tim (with_bitmap by_macro).
Proof. exact @tim_hash_distinct. Qed.
Print Assumptions C59_distinct.
Example C59_distinct_ex : with_bitmap of_slice (mkTIM 0 1 None) /\ with_bitmap of_slice (mkTIM 0 2 None) /\ feed_tim (mkTIM 0 1 None) <> feed_tim (mkTIM 0 2 None).
Proof. split; [exact I|]. split; [exact I|]. discriminate. Qed.
(** Equal elements of each kind, made in different ways *)
Example C59_ex (cfg : Cfg) :
  (exists a b, tim_bitmap_list [24; 23; 22; 24] = Ok a /\ tim_bitmap_range 22 24 = Ok b /\ tb_eq a b = Ok true) /\
  (exists a b, tb_new_static false [49154; 49170]%N = Ok a /\ tb_new_static false [49170; 49154; 49154]%N = Ok b /\ tb_eq a b = Ok true).
Proof.
  destruct cfg as [[] [] []];
  (split; do 2 eexists; (split; [vm_compute; reflexivity|]); (split; [vm_compute; reflexivity|]); vm_compute; reflexivity).
Qed.
(** The bytes that reach the hasher (numbers in [w] bytes) tell where the element ends: elements of one type hashed one after the other, or followed by anything, are not confused. *)
Theorem C59_prefix_free : forall (cfg : Cfg) w a b x y, same_type (te_bitmap a) (te_bitmap b) -> numbers_fit w a -> numbers_fit w b ->
  hash_stream w (feed_tim a) ++ x = hash_stream w (feed_tim b) ++ y -> a = b /\ x = y.
Proof. exact @prefix_free. Qed.
Print Assumptions C59_prefix_free.
(** It does take the length in front: *)
Example C59_prefix_free_ex (cfg : Cfg) : let a := mkTIM 0 1 (Some (mkTB 0%N (Some (BSlice [5]%N)))) in let b := mkTIM 0 1 (Some (mkTB 0%N (Some (BSlice [5; 6]%N)))) in
  same_type (te_bitmap a) (te_bitmap b) /\ numbers_fit 4 a /\ numbers_fit 4 b /\ length (hash_stream 4 (feed_tim a)) = 16 /\ length (hash_stream 4 (feed_tim b)) = 17.
Proof. destruct cfg as [[] [] []]; vm_compute; repeat (split; [auto|]); auto. Qed.

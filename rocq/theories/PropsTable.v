(** Property theorems about tables of numbers and texts written into a buffer and read again (C150). *)
From Coq Require Import String.
From Verif Require Import Base Mem Libc StrviewModel Spec NumSpec MemLemmas Alloc StrbufModel BufSpec HistSpec PrnfModel PrnfSpec HistSpec2
  TableSpec TableProofs ExampleLib BufExample PropsBuf2.
Local Open Scope string_scope.
Local Open Scope list_scope.
Local Open Scope Z_scope.

(** ** C150 *)
Theorem C150_table_round_trip : forall cf A T d j rows a vars w B, wf_cfg cf -> c_ptr cf = true -> delim_ok d ->
  Forall (fun r => r <> [] /\ Forall (cell_ok cf T) r) rows -> means cf T a vars w -> slot_of a j = ABuf B ->
  fits B (table_text d rows) = true -> sums_ok cf (Zlen (table_text d rows)) ->
  exists xs vars' w' a' B' last, xrun cf A vars w (put_table j d rows) = Ok (xs, vars', w') /\ means cf T a' vars' w' /\
    slot_of a' j = ABuf B' /\ bf_data B' = table_text d rows /\ (forall i, i <> j -> slot_of a' i = slot_of a i) /\
    get_table cf w' (var vars' j) (lit [d]) (map (map kind_of) rows) = Ok (map (fun r => (map value_of r, true)) rows, last) /\
    has_view (s_mem w') last [].
Proof. exact table_round. Qed.
Print Assumptions C150_table_round_trip.
(** Two tables with the same text have the same numbers and texts in the same places. *)
Theorem C150_text_determines_table : forall cf T T' d, delim_ok d -> forall rows rows',
  Forall (fun r => r <> [] /\ Forall (cell_ok cf T) r) rows -> Forall (fun r => r <> [] /\ Forall (cell_ok cf T') r) rows' ->
  table_text d rows = table_text d rows' -> map (map value_of) rows = map (map value_of) rows'.
Proof. exact table_inj. Qed.
Print Assumptions C150_text_determines_table.

(** A table with the character between the cells inside a text. *)
Definition rows0 : list (list cell) := [[Num (-42); Word wide (bs "wide"); Num (-9223372036854775808)]; [Word wide (bs "wide")]; [Num 0; Num 7]].
Example C150_ex : delim_ok 105 /\ Forall (fun r => r <> [] /\ Forall (cell_ok gcc64 T0) r) rows0 /\ means gcc64 T0 slots0 vars0 w_move
  /\ slot_of slots0 0 = ABuf b_hello /\ fits b_hello (table_text 105 rows0) = true /\ sums_ok gcc64 (Zlen (table_text 105 rows0))
  /\ table_text 105 rows0 = bs "-42i" ++ 34 :: bs "wide" ++ 34 :: bs "i-9223372036854775808" ++ 10 :: 34 :: bs "wide" ++ 34 :: 10 :: bs "0i7" ++ [10]
  /\ (forall A, exists xs vars' w' last, xrun gcc64 A vars0 w_move (put_table 0 105 rows0) = Ok (xs, vars', w')
       /\ get_table gcc64 w' (var vars' 0) (lit [105]) [[KNum; KWord; KNum]; [KWord]; [KNum; KNum]]
          = Ok ([([GotNum (Some (-42)); GotWord (Some (bs "wide")); GotNum (Some (-9223372036854775808))], true);
                 ([GotWord (Some (bs "wide"))], true); ([GotNum (Some 0); GotNum (Some 7)], true)], last)).
Proof.
  assert (delim_ok 105) as D by (unfold delim_ok, is_byte; lia).
  assert (Forall (fun r => r <> [] /\ Forall (cell_ok gcc64 T0) r) rows0) as R.
  { assert (cell_ok gcc64 T0 (Word wide (bs "wide"))) as Cw.
    { split; [split; reflexivity|]. repeat split; intro H; cbn in H; intuition discriminate. }
    assert (forall x, LLONG_MIN <= x <= LLONG_MAX -> cell_ok gcc64 T0 (Num x)) as Cn by (intros x Hx; split; [exact Hx|now left]).
    unfold LLONG_MIN, LLONG_MAX in Cn. unfold rows0.
    repeat (apply Forall_cons; [split; [discriminate|repeat (apply Forall_cons; [first [exact Cw|apply Cn; lia]|]); apply Forall_nil]|]). apply Forall_nil. }
  split; [exact D|]. split; [exact R|]. split; [now apply means0|]. split; [reflexivity|]. split; [vm_compute; reflexivity|]. split; [now left|]. split; [vm_compute; reflexivity|].
  intro A. destruct (table_round gcc64 A T0 105 0 rows0 slots0 vars0 w_move b_hello gcc64_wf eq_refl D R) as (xs & v & w & a & B & last & E1 & _ & _ & _ & _ & E2 & _);
    [now apply means0|reflexivity|vm_compute; reflexivity|now left|].
  exists xs, v, w, last. split; [exact E1|exact E2].
Qed.

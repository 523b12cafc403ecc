(** Property C82: only fresh data is delivered. *)
From Verif Require Import Base MBuffer SBuffer PBase MEip SEip MSocket MConnReq SConnReq MConn SConn PConnMap PConnOpen PIo PConnCall PConnCall2 PConnTop PDup.

(** Full statement: a datagram is delivered only if its items are a sequenced
    address item (0x8002) and a connected data item (0x00B1) and its sequence
    count is newer than the last one. On an open class 1 connection
    a copy, an older datagram and one with both item types 0 are delivered: *)
Theorem C82_refuted : exists g m m1 m2 m3 m4 c,
  reachable (list encaps) g m /\ lock 0 m = Some c /\ io_trigger c mod 4 = 1 /\ io_t2oId c = 0x10007
  /\ on_readable strict (Dgram (gram 0x10007 (le 2 5 ++ [8]))) m = (Ok tt, m1)
  /\ on_readable strict (Dgram (gram 0x10007 (le 2 5 ++ [8]))) m1 = (Ok tt, m2)
  /\ on_readable strict (Dgram (gram 0x10007 (le 2 4 ++ [7]))) m2 = (Ok tt, m3)
  /\ on_readable strict (Dgram (untyped 0x10007 (le 2 6 ++ [9]))) m3 = (Ok tt, m4)
  /\ m_log m4 = m_log m ++ [EvData 0 0 5 [8]; EvData 0 0 5 [8]; EvData 0 0 4 [7]; EvData 0 0 6 [9]].
Proof. exact stale_refuted. Qed.
Print Assumptions C82_refuted.
(** What happens: whatever a datagram makes the listeners see, every further
    copy makes them see it again, in any state of any manager. *)
Theorem C82_repeated : forall h l n m m' ev,
  on_readable h (Dgram l) m = (Ok tt, m') -> m_log m' = m_log m ++ ev ->
  exists m'', copies h l n m' = (Ok tt, m'') /\ m_log m'' = m_log m' ++ concat (repeat ev n).
Proof. exact copies_all. Qed.
Print Assumptions C82_repeated.
Example C82_repeated_example :
  let r := on_readable strict (Dgram (gram 0x10007 [1; 0; 9; 9])) (w_m after1 0%nat) in
  fst r = Ok tt /\ m_log (snd r) = m_log (w_m after1 0%nat) ++ [EvData 0 0 1 [9; 9]]
  /\ m_log (snd (copies strict (gram 0x10007 [1; 0; 9; 9]) 2 (snd r)))
     = m_log (snd r) ++ [EvData 0 0 1 [9; 9]; EvData 0 0 1 [9; 9]].
Proof. split; [|split]; vm_compute; reflexivity. Qed.
(** Only the connection id and the data of the second item matter, not the types
    of the items, the rest of the first (its sequence number) or further items. *)
Theorem C82_alike : forall h l l' m i0 i1 items j0 j1 items' X rest rest',
  is_bytes l -> is_bytes l' -> carries l (i0 :: i1 :: items) -> carries l' (j0 :: j1 :: items') -> is_u32 X ->
  it_data i0 = le 4 X ++ rest -> it_data j0 = le 4 X ++ rest' -> it_data i1 = it_data j1 ->
  on_readable h (Dgram l) m = on_readable h (Dgram l') m.
Proof. exact readable_alike. Qed.
Print Assumptions C82_alike.
Example C82_example :
  carries (gram 0x10007 [1; 0; 9; 9]) [mkItem 32770 8 (le 4 0x10007 ++ le 4 1); mkItem 177 4 [1; 0; 9; 9]]
  /\ carries (untyped 0x10007 [1; 0; 9; 9]) [mkItem 0 4 (le 4 0x10007 ++ []); mkItem 0 4 [1; 0; 9; 9]]
  /\ m_log (snd (on_readable strict (Dgram (gram 0x10007 [1; 0; 9; 9])) (w_m after1 0%nat))) = [EvData 0 0 1 [9; 9]]
  /\ m_log (snd (copies strict (gram 0x10007 [1; 0; 9; 9]) 3 (w_m after1 0%nat))) = [EvData 0 0 1 [9; 9]; EvData 0 0 1 [9; 9]; EvData 0 0 1 [9; 9]].
Proof.
  split; [apply (carries_iff strict); [repeat constructor; cbn; lia|vm_compute; reflexivity]|].
  split; [apply (carries_iff strict); [repeat constructor; cbn; lia|vm_compute; reflexivity]|].
  split; vm_compute; reflexivity.
Qed.

(** Specification of copied sessions. *)
From Verif Require Import Base MEip MSocket MRes MCopy.

(** Calls that are not copies, as MRes has them. *)
Inductive same_call : ccall -> rcall -> Prop :=
| same_open fd k p w : same_call (KOpen fd k p w) (ROpen fd k p w)
| same_send i q : same_call (KSend i q) (RSend i q)
| same_close i : same_call (KDestroy i) (RClose i).
(** socket() only returns numbers that stand for nothing. *)
Definition proper (h : heap) (cs : list ccall) : Prop :=
  forall before fd k p w after, cs = before ++ KOpen fd k p w :: after -> k_socket k = None ->
  cw_tab (crun h before cstart) fd = None.

(** No other object is a copy of the same session. *)
Definition alone (s : cworld) (i : nat) : Prop :=
  forall x j y, cw_obj s i = Some x -> cw_obj s j = Some y -> ob_link y = ob_link x -> j = i.
(** A copy is only destroyed when all others are. *)
Definition careful (h : heap) (cs : list ccall) : Prop :=
  forall before i after, cs = before ++ KDestroy i :: after -> alone (crun h before cstart) i.

(** What the object does, it does on its own connection: the number stands for it;
    an exchange is one on that connection and changes nothing else. *)
Definition sound (h : heap) (s : cworld) (x : obj) : Prop :=
  let g := ob_link x in
  cw_tab s (ob_fd x) = Some (Link g)
  /\ forall q o s', copy_send h x q s = (o, s') ->
     o = fst (send_and_receive h (fst (cw_link s g)) (ob_handle x) q (snd (cw_link s g)))
     /\ cw_link s' g = (fst (cw_link s g), snd (send_and_receive h (fst (cw_link s g)) (ob_handle x) q (snd (cw_link s g))))
     /\ (forall g', g' <> g -> cw_link s' g' = cw_link s g') /\ cw_obj s' = cw_obj s /\ cw_tab s' = cw_tab s.

(** No session is given the number in [cs]. *)
Definition unused (fd : Z) (cs : list ccall) : Prop := forall k p w, ~ In (KOpen fd k p w) cs.

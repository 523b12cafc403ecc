(** Specification of the sends of a session and of the failures of connecting. *)
From Verif Require Import Base MBuffer MEip MSocket.

(** What the peer receives of these packets, given the results of the calls of
    send(): the part that was accepted (everything when there is no result left). *)
Fixpoint accepted (rs : list send_result) (packets : list bytes) : list bytes :=
  match packets with
  | [] => []
  | d :: r => match rs with [] => d | x :: _ => firstn (Z.to_nat (s_count x)) d end :: accepted (tl rs) r
  end.
(** Every send() of these packets accepts everything. *)
Fixpoint all_accepted (rs : list send_result) (packets : list bytes) : Prop :=
  match packets with
  | [] => True
  | d :: r => match rs with [] => True | x :: _ => s_count x = zlen d end /\ all_accepted (tl rs) r
  end.

(** The steps of connecting in their order; Some errno is a failure. A wait that
    is over time or interrupted fails with ETIMEDOUT = 110; 115 is EINPROGRESS,
    4 is EINTR. *)
Definition connect_steps (k : calls) : list (option Z) :=
  [k_socket k; k_getfl1 k; k_setfl1 k]
  ++ (if match k_connect k with Some 115 => true | _ => false end
      then [(let '(n, e) := k_select k in
             if 0 <? n then None else if (n =? 0) || (e =? 4) then Some 110 else Some e);
            k_getsockopt k; (if k_soerr k =? 0 then None else Some (k_soerr k))]
      else [k_connect k])
  ++ [k_getfl2 k; k_setfl2 k].
Fixpoint first_failure (l : list (option Z)) : option Z :=
  match l with [] => None | Some e :: _ => Some e | None :: r => first_failure r end.

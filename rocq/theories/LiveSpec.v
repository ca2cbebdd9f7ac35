(** What live capture should do. *)
From Verif Require Import Base Enums Dict PacketModel LiveModel.
Definition same_name (a b : string) : bool := if string_dec a b then true else false.
(** Frames captured on a device, in order. *)
Definition captured (name : string) (log : list lres) : list frame :=
  flat_map (fun r => match r with LCap x f => if same_name x name then [f] else [] | _ => [] end) log.
(** Packets handed to the user as coming from a device: time stamp, bytes as captured, packet. *)
Definition handed (name : string) (log : list lres) : list (frame * packet) :=
  flat_map (fun r => match r with LPkt x f p => if same_name x name then [(f, p)] else [] | _ => [] end) log.
(** Frames of a device captured but not yet looked at: held by the user's thread, queued, held by the capture thread. *)
Definition of_item (name : string) (x : option item) : list frame :=
  match x with Some (d, _, f) => if same_name d name then [f] else [] | None => [] end.
Definition of_user (name : string) (u : user) : list frame := match u with UHold _ x => of_item name x | _ => [] end.
Definition of_thread (name : string) (t : thread) : list frame :=
  if same_name (t_name t) name then match t_st t with THas f => [f] | _ => [] end else [].
Definition waiting (name : string) (n : lnet) : list frame :=
  of_user name (v_user n) ++ flat_map (of_item name) (v_q n) ++ flat_map (of_thread name) (v_th n).
(** The packet a frame of link type [dlt] stands for, if it can be read. *)
Definition readable (dlt : Z) (f : frame) : list (frame * packet) :=
  match (if dlt =? 1 then Some CEth else if dlt =? 0 then Some CNull else None) with
  | Some c => match pkt_new (snd f) c with Ok p => [(f, p)] | Err _ => [] end
  | None => []
  end.
Definition is_shutdown (r : lres) : Prop := exists x, r = LShutdown x.

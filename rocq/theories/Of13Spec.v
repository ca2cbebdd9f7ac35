(** Specification vocabulary for OpenFlow 1.3 messages, written from the OpenFlow Switch
    Specification 1.3 (section 7).  [u8], [u16], [u32] are big-endian numbers ([OfLayout]). *)
From Verif Require Import Base OfModel OfSpec OfLayout Of13Model.

(** A whole message: ofp_header, then the body. *)
Definition message13 (ver ty xid : Z) (body : bytes) : bytes :=
  u8 ver ++ u8 ty ++ u16 (8 + zlen body) ++ u32 xid ++ body.
(** Types whose message is the bare header here: hello, the requests without arguments, barriers,
    and the types the library has no class for. *)
Definition bare13 (ty : Z) : Prop := In ty [0; 5; 7; 15; 17; 18; 19; 20; 21; 24; 25; 26; 27; 28; 29].
(** ofp_error_msg, echo, ofp_experimenter_header, ofp_switch_config.  None for other bodies, and
    for an error without type or code. *)
Definition wire13 (b : body13) : option bytes :=
  match b with
  | XError (Some t) (Some c) d => Some (u16 t ++ u16 c ++ d)
  | XEcho d => Some d
  | XExp v d => Some (u32 v ++ d)
  | XConfig f m => Some (u16 f ++ u16 m)
  | _ => None
  end.
(** The numbers a program stored fit their fields. *)
Definition room13 (b : body13) : Prop :=
  match b with XExp v _ => 0 <= v < 2 ^ 32 | XConfig _ m => 0 <= m < 65536 | _ => True end.
(** An error code that belongs to the error type. *)
Definition paired (b : body13) : Prop :=
  match b with XError (Some t) (Some c) _ => In c (error_codes t) | _ => True end.
(** The value assigned last by a sequence of assignments, if [pick] says which of them assign to
    the attribute, and [x] if none does. *)
Definition last_of {A} (pick : attr13 -> option A) (l : list attr13) (x : A) : A :=
  fold_left (fun y a => match pick a with Some v => v | None => y end) l x.
Definition to_data (a : attr13) : option bytes := match a with AData d => Some d | _ => None end.
Definition to_vendor (a : attr13) : option Z := match a with AVend v => Some v | _ => None end.
Definition to_miss (a : attr13) : option Z := match a with AMiss v => Some v | _ => None end.
(** Values that are not members of the enumeration are refused. *)
Definition to_flags (a : attr13) : option Z := match a with AFlags v => if zmem v ConfigFlags then Some v else None | _ => None end.
Definition to_type (a : attr13) : option (option Z) :=
  match a with AErrType v => if zmem v ErrorTypes then Some (Some v) else None | _ => None end.
Definition no_code (l : list attr13) : Prop := forall c, ~ In (AErrCode c) l.
(** The types whose messages are flow-mod, flow-removed, port-mod, port-status, features reply,
    packet-in and packet-out. *)
Definition broken13 (ty : Z) : Prop := In ty [6; 10; 11; 12; 13; 14; 16].
(** ofp_queue_get_config_request. *)
Definition queue_request13 (port : Z) : bytes := u32 port ++ pad 4.
Definition raises {A} (r : res A) : Prop := exists e, r = Err e.

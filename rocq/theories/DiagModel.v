(** Model of what failed outputs are reported to be: the diagnosis of _PacketMatcher (testing.py:177-219, 221-286) and
    PacketOutputEvent.fail_reason (543-559).  A diagnosis is kept as data (the index, classes, attributes and values that are
    put into its text, in order); the text of PacketOutputEvent.fail_reason is built in full, for ASCII port names. *)
From Verif Require Export Dict.
From Verif Require Import PacketModel NetModel TestModel.
From Coq Require Ascii. Import Ascii (ascii, nat_of_ascii, ascii_of_nat).
#[local] Open Scope string_scope.
#[local] Open Scope list_scope.

(** _comparison_diagnosis. *)
Record wrong := mkWrong { g_attr : str; g_is : aval; g_should : aval }.     (* "{} is wrong (is {} but should be {})" *)
Inductive diag :=
| DType (i : nat) (want found : hcls)                 (* 182-185 *)
| DExtra (l : list hcls)                              (* 190-191 *)
| DMissing (l : list hcls)                            (* 195-196 *)
| DAttrs (l : list (hcls * list wrong)).              (* 213-216 *)

(** _compare_header_types (178-199), from index [i]. *)
Fixpoint diag_types (i : nat) (r p : packet) : option diag :=
  match r, p with
  | [], [] => None
  | x :: r', y :: p' => if cls_eqb (class_of x) (class_of y) then diag_types (S i) r' p' else Some (DType i (class_of x) (class_of y))
  | [], l => Some (DExtra (map class_of l))
  | l, [] => Some (DMissing (map class_of l))
  end.
(** The loop over the attributes of one header (206-210). *)
Fixpoint diag_attrs (names : list str) (r c : hdr) : res (list wrong) :=
  match names with
  | [] => Ok []
  | a :: t =>
      x <- getattr r a;; y <- getattr c a;; d <- aval_ne x y;;
      if d then (if aval_shows x && aval_shows y then e <- diag_attrs t r c;; Ok (mkWrong a y x :: e) else Err EAttr)
      else diag_attrs t r c
  end.
(** _compare_header_attrs (201-217): headers without a difference are left out (212). *)
Fixpoint diag_hdrs (m : matcher) (r p : packet) : res (list (hcls * list wrong)) :=
  match r, p with
  | x :: r', y :: p' =>
      d <- diag_attrs (comparison_attrs m (class_of x)) x y;;
      e <- diag_hdrs m r' p';;
      Ok (match d with [] => e | _ => (class_of x, d) :: e end)
  | _, _ => Ok []
  end.
(** _compare_packet_against_reference: None is True. *)
Definition diagnose (m : matcher) (r p : packet) : res (option diag) :=
  match diag_types 0 r p with
  | Some d => Ok (Some d)
  | None => l <- diag_hdrs m r p;; Ok (match l with [] => None | _ => Some (DAttrs l) end)
  end.
(** The results of the predicates (303), in order. *)
Fixpoint pred_results (l : list predicate) (p : packet) : res (list bool) :=
  match l with [] => Ok [] | f :: t => a <- f p;; b <- pred_results t p;; Ok (a :: b) end.

(** fail_reason (243-286).  A packet shown is a packet and the attributes starred out in each header (221-241). *)
Definition shown := list (hdr * list str).
Definition show (wc : list wildcard) (p : packet) : res shown :=
  q <- star_all wc (map (fun h => (h, [])) p);; _ <- all_ok (map show_starred q);; Ok q.
Inductive body :=
| BMatched (s : shown)                                 (* 275-277 *)
| BDiag (d : diag) (details : option (packet * shown)). (* 278-285: with verbose output, the packet that failed and what was expected *)
Record reason := mkReason { e_exact : bool; e_wild : bool; e_contents : bool; e_preds : list bool; e_body : body }.
(** match (288-307) followed by fail_reason if it is not a match: None is a match. *)
Definition report (verbose : bool) (m : matcher) (p : packet) : res (option reason) :=
  ' (p', _) <- pkt_to_bytes p;;
  ' (r', _) <- pkt_to_bytes (m_ref m);;
  d <- diagnose m r' p';;
  c <- pred_results (m_preds m) p';;
  let first := match d with None => true | Some _ => false end in
  if first && forallb (fun b => b) c then Ok None
  else
    b <- (match d with
          | None => s <- show (m_wc m) p';; Ok (BMatched s)
          | Some d =>
              if verbose then
                if pkt_shows p' then s <- show (m_wc m) p';; Ok (BDiag d (Some (p', s))) else Err EAttr
              else Ok (BDiag d None)
          end);;
    Ok (Some (mkReason (m_exact m) (match m_wc m with [] => false | _ => true end) first c b)).

(** str.capitalize: the first letter upper case, all others lower case. *)
Definition lower (c : ascii) : ascii :=
  let n := nat_of_ascii c in if Nat.leb 65 n && Nat.leb n 90 then ascii_of_nat (n + 32) else c.
Definition upper (c : ascii) : ascii :=
  let n := nat_of_ascii c in if Nat.leb 97 n && Nat.leb n 122 then ascii_of_nat (n - 32) else c.
Fixpoint smap (f : ascii -> ascii) (s : str) : str := match s with EmptyString => EmptyString | String c t => String (f c) (smap f t) end.
Definition capitalize (s : str) : str := match s with EmptyString => EmptyString | String c t => String (upper c) (smap lower t) end.
(** PacketOutputEvent.fail_reason (543-559). *)
Definition plural {A} (l : list A) : str := match l with [_] => "" | _ => "s" end.
Definition message (sent wait : list str) : str :=
  ((match sent with [] => "" | _ => "your code has sent a packet on port" ++ plural sent ++ " " ++ String.concat "," sent ++
      (match wait with [] => "" | _ => ", but " end) end) ++
   (match wait with [] => "" | _ => (match sent with [] => "your code did not send packet" ++ plural wait ++ " " | _ => "not " end) ++
      "on port" ++ plural wait ++ " " ++ String.concat "," wait end))%string.
Definition event_reason (o : oev) : str := capitalize (message (dkeys (oe_got o)) (dkeys (oe_wait o))).

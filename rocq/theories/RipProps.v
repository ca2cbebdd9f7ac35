(** Properties C22 and C65: RIPv2. *)
From Verif Require Import BaseLemmas CodecLemmas RipModel RipProofs.

(** C22.  Layout of RFC 2453 and round trip, for any number of route entries; up to 19 stray bytes at the end
    of a received message are ignored. *)
Theorem C22_serialise :
  forall h, wf_rip h -> rip_to_bytes h = Ok ([rip_cmd h; 2; 0; 0] ++ routes_layout (rip_routes h)).
Proof. exact rip_encode. Qed.
Print Assumptions C22_serialise.
Theorem C22_round_trip :
  forall h extra, wf_rip h -> (length extra < 20)%nat ->
  exists b, rip_to_bytes h = Ok b /\ rip_parse (b ++ extra) = Ok h.
Proof. exact (fun h x H Hx => ex_intro _ _ (conj (rip_encode h H) (rip_decode h x H Hx))). Qed.
Print Assumptions C22_round_trip.
(** An entry made from an address and a netmask of p ones holds the address with the other bits cleared. *)
Theorem C22_entry_masked :
  forall addr p nexthop family metric tag, 0 <= addr < 2 ^ 32 -> 0 <= p <= 32 ->
  exists e, rip_entry_new addr (2 ^ 32 - 2 ^ (32 - p)) nexthop family metric tag = Ok e /\
  e = mkRipE family tag p (addr - addr mod 2 ^ (32 - p)) nexthop metric.
Proof. exact (fun a p n f m t Ha Hp => ex_intro _ _ (conj (rip_entry_construct a _ n f m t p Ha Hp eq_refl) eq_refl)). Qed.
Print Assumptions C22_entry_masked.
(** The masks accepted are exactly the contiguous ones and their complements. *)
Theorem C22_masks_accepted :
  forall m, 0 <= m < 2 ^ 32 ->
  (forall p, prefix_from_mask m = Some p -> 0 <= p <= 32 /\ (m = mask_value p \/ m = 2 ^ 32 - 1 - mask_value p)) /\
  ((forall p, 0 <= p <= 32 -> m <> mask_value p /\ m <> 2 ^ 32 - 1 - mask_value p) ->
   forall addr nexthop family metric tag, rip_entry_new addr m nexthop family metric tag = Err EValue).
Proof. intros m Hm. split; [intros p Hp; apply prefix_exact; auto|].
  intros Hn a n f k t. unfold rip_entry_new. rewrite mask_refused by auto. reflexivity. Qed.
Print Assumptions C22_masks_accepted.
(** Entries are read and replaced by index, negative indices counting from the end. *)
Theorem C22_get :
  forall h i, ((exists e, rip_get h i = Ok e) <-> - zlen (rip_routes h) <= i < zlen (rip_routes h)) /\
  (0 <= i < zlen (rip_routes h) -> forall d, rip_get h i = Ok (nth (Z.to_nat i) (rip_routes h) d)) /\
  (- zlen (rip_routes h) <= i < 0 -> rip_get h i = rip_get h (zlen (rip_routes h) + i)).
Proof. exact (fun h i => conj (rip_get_range h i) (rip_get_spec h i)). Qed.
Print Assumptions C22_get.
Theorem C22_set :
  forall h i e h' j, rip_set h i e = Ok h' ->
  rip_get h' j = (if match rip_index h i, rip_index h j with Ok a, Ok b => Nat.eqb a b | _, _ => false end then Ok e else rip_get h j) /\
  rip_cmd h' = rip_cmd h /\ length (rip_routes h') = length (rip_routes h).
Proof. exact rip_set_get. Qed.
Print Assumptions C22_set.

Definition rip_ex : rip := mkRip 2 [mkRipE 2 7 24 0x0a000100 0xc0a80001 3; mkRipE 2 0 0 0 0 16].
Example C22_example :
  wf_rip rip_ex /\ rip_entry_new 0x0a0001fe 0xffffff00 0xc0a80001 2 3 7 = Ok (mkRipE 2 7 24 0x0a000100 0xc0a80001 3) /\
  rip_get rip_ex (-1) = Ok (mkRipE 2 0 0 0 0 16).
Proof. split; [|split; vm_compute; reflexivity]. split; [cbn; auto|].
  repeat (constructor; [unfold wf_re, rip_net_ok; cbn [re_family re_tag re_plen re_net re_nexthop re_metric]; repeat split; try lia; reflexivity|]). constructor. Qed.

(** Appending puts the route at the end and leaves the earlier ones where they were. *)
Theorem C22_append :
  forall h e, rip_cmd (rip_append h e) = rip_cmd h /\
  zlen (rip_routes (rip_append h e)) = zlen (rip_routes h) + 1 /\
  rip_get (rip_append h e) (-1) = Ok e /\ rip_get (rip_append h e) (zlen (rip_routes h)) = Ok e /\
  (forall i, 0 <= i < zlen (rip_routes h) -> rip_get (rip_append h e) i = rip_get h i).
Proof. exact rip_append_spec. Qed.
Print Assumptions C22_append.

(** C65.  What is received is re-serialised to a message that means the same to the next receiver. *)
Theorem C65_stable_partial :
  forall raw h, wfb raw -> rip_parse raw = Ok h -> exists b, rip_to_bytes h = Ok b /\ rip_parse b = Ok h.
Proof. intros raw h Hw H. destruct (rip_parse_wf raw h Hw H) as (W & _). exists (rip_layout h). split; [apply rip_encode; auto|].
  rewrite <- (app_nil_r (rip_layout h)). apply rip_decode; auto. cbn. lia. Qed.
Print Assumptions C65_stable_partial.
(** C65 fails byte for byte: the mask 0.0.0.255 is taken as a host mask and sent on as 255.255.255.0. *)
Theorem C65_mask_changed_refuted :
  exists raw h b, wfb raw /\ rip_parse raw = Ok h /\ rip_to_bytes h = Ok b /\
  firstn 4 (skipn 12 raw) = [0; 0; 0; 255] /\ firstn 4 (skipn 12 b) = [255; 255; 255; 0] /\ length b = length raw.
Proof. exists ([2; 2; 0; 0] ++ [0; 2; 0; 0; 10; 0; 1; 0; 0; 0; 0; 255; 0; 0; 0; 0; 0; 0; 0; 1]). do 2 eexists.
  split; [repeat (apply wfb_cons; split; [lia|]); apply wfb_nil|]. split; [vm_compute; reflexivity|]. split; [vm_compute; reflexivity|].
  split; [reflexivity|]. split; reflexivity. Qed.
Print Assumptions C65_mask_changed_refuted.
(** Parsing into a message that already has routes appends to them. *)
Theorem C65_parse_appends_refuted :
  exists h raw h', rip_parse raw = Ok h /\ rip_from_bytes h raw = Ok h' /\ length (rip_routes h) = 1%nat /\ length (rip_routes h') = 2%nat.
Proof. do 1 eexists. exists ([2; 2; 0; 0] ++ [0; 2; 0; 0; 10; 0; 1; 0; 255; 255; 255; 0; 0; 0; 0; 0; 0; 0; 0; 1]). eexists.
  split; [vm_compute; reflexivity|]. split; [vm_compute; reflexivity|]. split; reflexivity. Qed.
Print Assumptions C65_parse_appends_refuted.

(** C22.  A new message is a request without entries. *)
Theorem C22_default : rip_to_bytes rip_new = Ok [1; 2; 0; 0] /\ rip_parse [] = Ok (mkRip 1 []).
Proof. split; reflexivity. Qed.
Print Assumptions C22_default.

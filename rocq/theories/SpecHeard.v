(** Specification vocabulary for C101: what decoding any octets must return, in
    one table over all reports and datagrams. *)
From Coq Require Import String ZArith List Bool.
From Verif Require Import Py Address Dpt Tables State Decode SpecMsg SpecTables SpecWire SpecDecode SpecFail Props_Decode.
Import ListNotations.
Open Scope Z_scope.

(** ** Telegrams *)

(** Whether a number is among the listed addresses. *)
Definition has (s : assoc_table) (g : Z) : bool := existsb (Z.eqb g) (vals (at_addrs (as_table s))).
(** A telegram for a group address: one message for every receiving entry, if the
    address is listed.  A telegram for a device: the property message, if an
    indication comes from, a confirmation goes to the own address. *)
Definition telegram_messages tb l h (s : assoc_table) (go : gobj_table) (k : dir) (t : telegram) : list message :=
  let own := a_val (at_ia (as_table s)) in
  if negb (plain t) then []
  else if group_addressed t then
    if negb (t_dst t =? 0) && has s (t_dst t) then
      match group_service t with
      | Some svc => group_messages k svc t (receivers tb l h (t_dst t) go)
      | None => []
      end
    else []
  else if match k with Ind => t_src t =? own | Con => (t_dst t =? own) && negb (has s (t_dst t)) end then
    match property_service t with Some svc => [property_message k svc t] | None => [] end
  else [].
(** A telegram for a group address that is numbered or a control telegram: the
    decoder returns no list at all. *)
Definition no_list (t : telegram) : bool := group_addressed t && negb (t_dst t =? 0) && negb (plain t).

(** ** USB *)

(** The report of a device feature: as the cEMI frame, with protocol 15. *)
Definition usb_features (m : list Z) : list message :=
  match m with
  | id :: info :: plen :: r =>
      if (id =? 1) && (info mod 16 =? 3) then
        match ztake plen r with
        | version :: hlen :: hi :: lo :: r2 =>
            if (version =? 0) && (hlen =? 8) then
              match ztake (256 * hi + lo + 4) r2 with
              | protocol :: service :: mf1 :: mf2 :: feature :: value :: _ =>
                  if protocol =? 15 then feature_report service mf1 mf2 feature value else []
              | _ => []
              end
            else []
        | _ => []
        end
      else []
  | _ => []
  end.

(** ** KNXnet/IP *)

(** The answers that are no telegrams: address, port and individual address of a
    search response; endpoint, individual address (of a successful one) and status
    of a connect response; the status of a connection state response; the channel
    of a successful disconnect response. *)
Definition search_answer (r : list Z) : list message :=
  match r with
  | _ :: _ :: _ :: _ :: i1 :: i2 :: i3 :: i4 :: p1 :: p2 :: _ :: _ :: x1 :: x2 :: _ =>
      [MSearchRes (dotted [i1; i2; i3; i4]) (256 * p1 + p2) (256 * x1 + x2)]
  | _ => []
  end.
Definition connect_answer (r : list Z) : list message :=
  match r with
  | _ :: _ :: _ :: sta :: _ :: _ :: i1 :: i2 :: i3 :: i4 :: p1 :: p2 :: d =>
      [MConnectRes (dotted [i1; i2; i3; i4]) (256 * p1 + p2)
         (if sta =? 0 then Some (match d with _ :: _ :: x1 :: x2 :: _ => 256 * x1 + x2 | _ => 0 end) else None) sta]
  | _ => []
  end.
Definition connectionstate_answer (r : list Z) : list message :=
  match r with _ :: _ :: _ :: sta :: _ => [MConnectionstateRes sta] | _ => [] end.
Definition disconnect_answer (r : list Z) : list message :=
  match r with _ :: _ :: channel :: sta :: _ => if sta =? 0 then [MDisconnectRes channel 0] else [] | _ => [] end.

(** ** All octets *)

(** The result of octets [m] in a state [st] with association table [s] (made by
    history [l], [h] from [tb]) and group object table [go]. *)
Definition returned tb l h (s : assoc_table) (go : gobj_table) (st : state) (m : list Z) : dres :=
  let telegrams cemi := match cemi_telegram cemi with
                        | Some (k, t) => telegram_messages tb l h s go k t
                        | None => []
                        end in
  match st_medium st with
  | Usb_hid =>
      match usb_cemi m with
      | Some cemi =>
          match cemi_telegram cemi with
          | Some (_, t) => if no_list t then RNone else RList (telegrams cemi)
          | None => RList []
          end
      | None => RList (usb_features m)
      end
  | Knxnet_ip =>
      match ip_service m with
      | Some (service, r) =>
          if service =? 0x0202 then RList (search_answer r)
          else if service =? 0x0206 then RList (connect_answer r)
          else if service =? 0x0208 then RList (connectionstate_answer r)
          else if service =? 0x020A then RList (disconnect_answer r)
          else if service =? 0x0420 then
            match r with
            | _ :: _ :: _ :: _ :: counter :: _ :: cemi =>
                if counter =? st_remote st then RList (MTunnelingReq counter 0 :: telegrams cemi)
                else if counter + 1 =? st_remote st then RList [MTunnelingReq counter 0]
                else RList [MTunnelingReq counter 3]
            | _ => RList []
            end
          else if service =? 0x0421 then
            match r with
            | _ :: _ :: _ :: _ :: _ :: sta :: _ => RAck [MTunnelingAck (local_after m (st_local st)) sta]
            | _ => RList []
            end
          else RList []
      | None => RList []
      end
  | Tp => RList []
  end.

(** ** Runs *)

(** Octets received one after the other, from state [st] on. *)
Fixpoint hear (c : msg_class) (st : state) (ms : list (list Z)) : list (res dres) * state :=
  match ms with
  | [] => ([], st)
  | m :: r =>
      let '(os, st') := hear c (snd (decode_msg c m st)) r in
      (fst (decode_msg c m st) :: os, st')
  end.
(** All they change: the local counter and the channel, on KNXnet/IP. *)
Definition moved (st : state) (ms : list (list Z)) : state :=
  match st_medium st with
  | Knxnet_ip =>
      mkstate (st_medium st) (st_assoc st) (st_gobj st) (st_ldata st) (st_asap st) (st_apci st) (st_address_type st)
        (st_remote st) (fold_left (fun n m => local_after m n) ms (st_local st))
        (fold_left (fun ch m => channel_after m ch) ms (st_channel st))
  | _ => st
  end.

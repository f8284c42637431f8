(** C72: the IP addresses of endpoints, given as text. *)
From Coq Require Import String Ascii ZArith List Bool Lia.
From Verif Require Import Py Base Msg Address Dpt Tables LData Inet State Encode.
From Verif Require Import SpecMsg SpecTables SpecWire SpecInet MsgProofs InetProofs EncodeProofs Props_Encode.
Import ListNotations.
Open Scope Z_scope.

(** ** C72 *)

(** The texts inet_aton accepts and what it makes of them. *)
Theorem C72_accepted : forall s ip, ~ In Ascii.zero (list_ascii_of_string s) ->
  (inet_aton s = Ok ip <-> address_text s ip).
Proof. exact aton_spec. Qed.
Print Assumptions C72_accepted.

(** Every other text raises; a text with a null character raises ValueError. *)
Theorem C72_refused : forall s, match inet_aton s with
  | Ok ip => ipv4 ip
  | Err e => (e = ValueError /\ In Ascii.zero (list_ascii_of_string s)) \/
             (e = OSError /\ ~ In Ascii.zero (list_ascii_of_string s) /\ forall ip, ~ address_text s ip)
  end.
Proof. exact aton_errors. Qed.
Print Assumptions C72_refused.

(** A text denotes at most one address. *)
Theorem C72_unambiguous : forall s ip1 ip2, address_text s ip1 -> address_text s ip2 -> ip1 = ip2.
Proof.
  intros s ip1 ip2 H1 H2. apply aton_complete in H1; [|lia]. apply aton_complete in H2; [|lia]. congruence.
Qed.
Print Assumptions C72_unambiguous.

(** A dotted quad denotes its four octets. *)
Theorem C72_dotted : forall ip, ipv4 ip -> address_text (dotted ip) ip.
Proof.
  intros ip H. pose proof (aton_dotted ip H) as E. unfold inet_aton in E.
  destruct (existsb _ _); [discriminate|]. destruct (aton_parts 3 _) as [l|] eqn:A; [|discriminate].
  injection E as ->. apply aton_sound in A; [exact A|lia].
Qed.
Print Assumptions C72_dotted.

(** Requests whose endpoint texts denote addresses carry these addresses,
    however they are written; a request with another text raises and changes
    nothing. *)
Theorem C72_connect : forall a1 p1 a2 p2 st,
  encode_msg (MConnectReq a1 p1 a2 p2) st =
  (match inet_aton a1, inet_aton a2 with
   | Ok ip1, Ok ip2 => Ok ([0x06; 0x10; 0x02; 0x05; 0x00; 0x1A] ++ endpoint ip1 p1 ++ endpoint ip2 p2 ++ [0x04; 0x04; 0x02; 0x00])
   | Err e, _ => Err e
   | Ok _, Err e => Err e
   end, st).
Proof.
  intros a1 p1 a2 p2 st. pose proof (aton_errors a1) as H1. pose proof (aton_errors a2) as H2.
  cbn [encode_msg]. unfold e_connect_req, mbind, mlift, mret.
  destruct (inet_aton a1) as [ip1|e1]; [|reflexivity]. destruct (inet_aton a2) as [ip2|e2]; [|reflexivity].
  rewrite !hpai_endpoint by assumption. reflexivity.
Qed.
Print Assumptions C72_connect.
Theorem C72_search : forall a p st,
  encode_msg (MSearchReq a p) st =
  (match inet_aton a with
   | Ok ip => Ok ([0x06; 0x10; 0x02; 0x01; 0x00; 0x0E] ++ endpoint ip p)
   | Err e => Err e
   end, st).
Proof.
  intros a p st. pose proof (aton_errors a) as H.
  cbn [encode_msg]. unfold e_search_req, mbind, mlift, mret.
  destruct (inet_aton a) as [ip|e]; [|reflexivity]. rewrite hpai_endpoint by assumption. reflexivity.
Qed.
Print Assumptions C72_search.

(** A full dotted quad, short forms, other bases, trailing text, and texts that
    are refused. *)
Example C72_example :
  inet_aton "192.168.0.10" = Ok [192; 168; 0; 10] /\ inet_aton "127.1" = Ok [127; 0; 0; 1] /\
  inet_aton "0xC0.0250.10" = Ok [192; 168; 0; 10] /\ inet_aton "3232235530" = Ok [192; 168; 0; 10] /\
  inet_aton "192.168.0.010" = Ok [192; 168; 0; 8] /\ inet_aton "10.0.0.1 gateway" = Ok [10; 0; 0; 1] /\
  inet_aton "192.168.0.256" = Err OSError /\ inet_aton "192.168.0.08" = Err OSError /\ inet_aton "" = Err OSError /\
  inet_aton "1.2.3.4.5" = Err OSError /\ inet_aton "localhost" = Err OSError /\ inet_aton "4294967296" = Err OSError /\
  inet_aton "1.2.3." = Err OSError /\ inet_aton "0x" = Err OSError /\
  inet_aton (String "1" (String Ascii.zero EmptyString)) = Err ValueError.
Proof. vm_compute. auto 20. Qed.
(** Leading zeros make a part octal: the text 192.168.0.010 does not denote the
    address that it shows. *)
Theorem C72_leading_zero_refuted : exists s ip, s = "192.168.0.010"%string /\ ip = [192; 168; 0; 10] /\
  ~ address_text s ip /\ address_text s [192; 168; 0; 8].
Proof.
  exists "192.168.0.010"%string, [192; 168; 0; 10]. split; [reflexivity|]. split; [reflexivity|].
  assert (E : inet_aton "192.168.0.010" = Ok [192; 168; 0; 8]) by (vm_compute; reflexivity).
  assert (N : ~ In Ascii.zero (list_ascii_of_string "192.168.0.010")) by (vm_compute; intuition discriminate).
  split; [|apply C72_accepted; assumption]. intros T. apply (C72_accepted _ _ N) in T. congruence.
Qed.
Print Assumptions C72_leading_zero_refuted.
Example C72_hypotheses : ~ In Ascii.zero (list_ascii_of_string "127.1") /\ address_text "127.1" [127; 0; 0; 1].
Proof.
  assert (N : ~ In Ascii.zero (list_ascii_of_string "127.1")) by (vm_compute; intuition discriminate).
  split; [exact N|]. apply C72_accepted; [exact N|vm_compute; reflexivity].
Qed.

(** Certificate extensions that are written and read (C117). *)
From Verif.Model Require Import Bytes Env Asn1 Pkcs7 X509 CertExt.

(** An IPv4 address, perhaps written as an IPv6 address (RFC 4291, 2.5.5.2), is written in four octets. *)
Definition mapped (ip a : bytes) : Prop := ip = repeat x00 10 ++ [xff; xff] ++ a /\ zlen a = 4.
Definition address_read (ip read : bytes) : Prop := mapped ip read \/ (~ (exists a, mapped ip a) /\ read = ip).

Definition oid_fits (o : oid) : Prop := Forall (fun n => 0 <= n <= max_int32) o /\ (forall a b r, o = a :: b :: r -> a * 40 + b <= max_int32).
(** The extended key usages that have a name *)
Definition named_usages : list oid :=
  [2; 5; 29; 37; 0] :: [1; 3; 6; 1; 4; 1; 311; 10; 3; 3] :: [2; 16; 840; 1; 113730; 4; 1] :: map (fun n => [1; 3; 6; 1; 5; 5; 7; 3; n]) [1; 2; 3; 4; 5; 6; 7; 8; 9].

(** What a template has to say so that it can be read back: the nine key usages of RFC 5280, numbers that fit, addresses of four or
    sixteen octets, name constraints that are not empty. *)
Record template_ok (t : certExt) : Prop := {
  to_usage : 0 <= xe_keyUsage t < 2 ^ 9;
  to_path : - 2 ^ 63 <= xe_maxPathLen t < 2 ^ 63;
  to_eku : Forall (fun u => 0 <= u <= 11) (xe_eku t);
  to_unknown : Forall (fun o => oid_fits o /\ ~ In o named_usages) (xe_unknownEku t);
  to_policies : Forall oid_fits (xe_policies t);
  to_ips : Forall (fun ip => zlen ip = 4 \/ zlen ip = 16) (xe_ips t);
  to_permitted : Forall (fun n => n <> []) (xe_permitted t);
  to_excluded : Forall (fun n => n <> []) (xe_excluded t);
  to_names : Forall (fun n => zlen n < 2 ^ 30) (xe_dns t ++ xe_emails t ++ xe_ocsp t ++ xe_issuing t ++ xe_crl t) }.

(** The fields of the certificate that is read *)
Record read_back (t : certExt) (aki : bytes) (c : certExt) : Prop := {
  rb_usage : xe_keyUsage c = xe_keyUsage t;
  rb_basic : xe_bcValid c = xe_bcValid t;
  rb_ca : xe_isCA c = (xe_bcValid t && xe_isCA t);
  rb_path : xe_bcValid t = true -> (xe_maxPathLen t <> 0 \/ xe_maxPathLenZero t = true) -> xe_maxPathLen c = xe_maxPathLen t;
  rb_no_path : xe_bcValid t = true -> xe_maxPathLen t = 0 -> xe_maxPathLenZero t = false -> xe_maxPathLen c = -1;
  rb_zero : xe_bcValid t = true -> (xe_maxPathLenZero c = true <-> xe_maxPathLen c = 0);
  rb_ski : xe_ski c = xe_ski t;
  rb_aki : xe_aki c = aki;
  rb_ocsp : xe_ocsp c = xe_ocsp t;
  rb_issuing : xe_issuing c = xe_issuing t;
  rb_dns : xe_dns c = xe_dns t;
  rb_emails : xe_emails c = xe_emails t;
  rb_ips : Forall2 address_read (xe_ips t) (xe_ips c);
  rb_permitted : xe_permitted c = xe_permitted t;
  rb_excluded : xe_excluded c = xe_excluded t;
  rb_critical : xe_permitted t ++ xe_excluded t <> [] -> xe_permCritical c = xe_permCritical t;
  rb_crl : xe_crl c = xe_crl t;
  rb_policies : xe_policies c = xe_policies t;
  rb_eku : xe_eku c = xe_eku t;
  rb_unknown : xe_unknownEku c = xe_unknownEku t;
  rb_handled : xe_unhandled c = [] }.

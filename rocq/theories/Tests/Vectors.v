(** GENERATED by tools/gen_vectors.py from /repo/tests: every vector of the unit tests, replayed
    on the model with vm_compute. *)
From Coq Require Import String.
From Verif.Model Require Import Py Re Regexes Common Base.
From Verif.Model Require Import Adi Cpi Gdti Giai Gid Grai Gsrn Gsrnp Itip Lgtin Sgcn Sgln Sgtin Sscc Usdod Others Parsers.

Definition ok_str (r : res str) (s : str) : bool := match r with Ok x => str_eqb x s | Raise _ => false end.
Definition ok_uri (r : res epc) (s : str) : bool := match r with Ok x => str_eqb (epc_uri x) s | Raise _ => false end.
Definition is_convert {A} (r : res A) : bool := match r with Raise ConvertException => true | _ => false end.
Definition oall {A} (o : option A) (p : A -> bool) : bool := match o with Some a => p a | None => true end.

(** TestEPCSchemeInitMeta, 103 valid and 127 invalid URIs *)
Definition init_valid : list (cls * str) :=
  [(C_ADI, (lit "urn:epc:id:adi:W81X9C.3KL984PX1.2WMA-52"));
   (C_ADI, (lit "urn:epc:id:adi:2S194..12345678901"));
   (C_ADI, (lit "urn:epc:id:adi:W81X9C.3KL984PX1.%232WMA52"));
   (C_ADI, (lit "urn:epc:id:adi:W81X9C.3KL984PX1.%232WM%2FA52"));
   (C_BIC, (lit "urn:epc:id:bic:CSQU3054383"));
   (C_BIC, (lit "urn:epc:id:bic:CSQJ3054381"));
   (C_CPI, (lit "urn:epc:id:cpi:0614141.123ABC.123456789"));
   (C_CPI, (lit "urn:epc:id:cpi:0614141.12-456.123456789"));
   (C_CPI, (lit "urn:epc:id:cpi:0614141.1%231456.123456789"));
   (C_CPI, (lit "urn:epc:id:cpi:0614141.123456.0"));
   (C_GDTI, (lit "urn:epc:id:gdti:0614141.12345.400"));
   (C_GDTI, (lit "urn:epc:id:gdti:0614141.12345.40000000000000000"));
   (C_GDTI, (lit "urn:epc:id:gdti:061414.123451.40000000000000000"));
   (C_GDTI, (lit "urn:epc:id:gdti:0614141.12345.0"));
   (C_GDTI, (lit "urn:epc:id:gdti:0614141.12345.ABCD1234%2F"));
   (C_GDTI, (lit "urn:epc:id:gdti:0614141.12345.01"));
   (C_GIAI, (lit "urn:epc:id:giai:0614141.12345400"));
   (C_GIAI, (lit "urn:epc:id:giai:0614141.0"));
   (C_GIAI, (lit "urn:epc:id:giai:0614141.1ABc%2FD"));
   (C_GIAI, (lit "urn:epc:id:giai:061411.01ABc%2FD"));
   (C_GIAI, (lit "urn:epc:id:giai:012345.012345678901234567890123"));
   (C_GIAI, (lit "urn:epc:id:giai:012345678901.012345678901234567"));
   (C_GID, (lit "urn:epc:id:gid:95100000.12345.400"));
   (C_GID, (lit "urn:epc:id:gid:95100000.12345.0"));
   (C_GID, (lit "urn:epc:id:gid:0.0.0"));
   (C_GID, (lit "urn:epc:id:gid:268435455.16777215.68719476735"));
   (C_GINC, (lit "urn:epc:id:ginc:0614141.xyz3311cba"));
   (C_GINC, (lit "urn:epc:id:ginc:0614141.0"));
   (C_GINC, (lit "urn:epc:id:ginc:0614141.01"));
   (C_GINC, (lit "urn:epc:id:ginc:061411.01ABc%2FD"));
   (C_GINC, (lit "urn:epc:id:ginc:012345.012345678901234567890123"));
   (C_GINC, (lit "urn:epc:id:ginc:012345678901.012345678901234567"));
   (C_GRAI, (lit "urn:epc:id:grai:0614141.12345.400"));
   (C_GRAI, (lit "urn:epc:id:grai:0614141.12345.4000000000000000"));
   (C_GRAI, (lit "urn:epc:id:grai:061414113245..0"));
   (C_GRAI, (lit "urn:epc:id:grai:061414113245..01"));
   (C_GRAI, (lit "urn:epc:id:grai:0614141.12345.ABCD1234%2F"));
   (C_GRAI, (lit "urn:epc:id:grai:061414113245..274877906944"));
   (C_GRAI, (lit "urn:epc:id:grai:0614141.12345.ABCDEFGHIJKLMNOP"));
   (C_GSIN, (lit "urn:epc:id:gsin:0614141.123456789"));
   (C_GSIN, (lit "urn:epc:id:gsin:061414112345.0123"));
   (C_GSIN, (lit "urn:epc:id:gsin:061414.0123456789"));
   (C_GSIN, (lit "urn:epc:id:gsin:061414.0000000000"));
   (C_GSIN, (lit "urn:epc:id:gsin:000000.0000000000"));
   (C_GSIN, (lit "urn:epc:id:gsin:999999999999.9999"));
   (C_GSIN, (lit "urn:epc:id:gsin:999999.9999999999"));
   (C_GSRN, (lit "urn:epc:id:gsrn:0614141.1234567890"));
   (C_GSRN, (lit "urn:epc:id:gsrn:012345678901.01234"));
   (C_GSRN, (lit "urn:epc:id:gsrn:000000.00000000000"));
   (C_GSRN, (lit "urn:epc:id:gsrn:000000000000.00000"));
   (C_GSRN, (lit "urn:epc:id:gsrn:999999999999.99999"));
   (C_GSRN, (lit "urn:epc:id:gsrn:999999.99999999999"));
   (C_GSRNP, (lit "urn:epc:id:gsrnp:0614141.1234567890"));
   (C_GSRNP, (lit "urn:epc:id:gsrnp:012345678901.01234"));
   (C_GSRNP, (lit "urn:epc:id:gsrnp:000000.00000000000"));
   (C_GSRNP, (lit "urn:epc:id:gsrnp:000000000000.00000"));
   (C_GSRNP, (lit "urn:epc:id:gsrnp:999999999999.99999"));
   (C_GSRNP, (lit "urn:epc:id:gsrnp:999999.99999999999"));
   (C_IMOVN, (lit "urn:epc:id:imovn:9176187"));
   (C_IMOVN, (lit "urn:epc:id:imovn:0123456"));
   (C_IMOVN, (lit "urn:epc:id:imovn:0000000"));
   (C_IMOVN, (lit "urn:epc:id:imovn:9999999"));
   (C_ITIP, (lit "urn:epc:id:itip:4012345.012345.01.02.987"));
   (C_ITIP, (lit "urn:epc:id:itip:0123456.012345.00.00.01234567890123456789"));
   (C_ITIP, (lit "urn:epc:id:itip:012345678901.0.00.00.01234567890123456789"));
   (C_ITIP, (lit "urn:epc:id:itip:012345678901.0.00.00.ABCDEFGHIJKLMNOP%2FRST"));
   (C_LGTIN, (lit "urn:epc:class:lgtin:061414.0123456.xyz3311cba"));
   (C_LGTIN, (lit "urn:epc:class:lgtin:061414012345.0.0"));
   (C_LGTIN, (lit "urn:epc:class:lgtin:061414012345.0.01234567890123456789"));
   (C_PGLN, (lit "urn:epc:id:pgln:1234567.89012"));
   (C_PGLN, (lit "urn:epc:id:pgln:012345678901."));
   (C_PGLN, (lit "urn:epc:id:pgln:01234567890.0"));
   (C_PGLN, (lit "urn:epc:id:pgln:0123456789.01"));
   (C_PGLN, (lit "urn:epc:id:pgln:012345.012345"));
   (C_SGCN, (lit "urn:epc:id:sgcn:4012345.67890.04711"));
   (C_SGCN, (lit "urn:epc:id:sgcn:4012345.67890.0"));
   (C_SGCN, (lit "urn:epc:id:sgcn:4012345.67890.01"));
   (C_SGCN, (lit "urn:epc:id:sgcn:401234512345..1"));
   (C_SGCN, (lit "urn:epc:id:sgcn:401231.123465.999999999999"));
   (C_SGLN, (lit "urn:epc:id:sgln:0614141.12345.400"));
   (C_SGLN, (lit "urn:epc:id:sgln:0614141.12345.0"));
   (C_SGLN, (lit "urn:epc:id:sgln:0614141.12345.01"));
   (C_SGLN, (lit "urn:epc:id:sgln:061411.012345.01"));
   (C_SGLN, (lit "urn:epc:id:sgln:061411123456..01"));
   (C_SGLN, (lit "urn:epc:id:sgln:061411123456..A%2F-BCDEFGHIJKLMNOPQR"));
   (C_SGLN, (lit "urn:epc:id:sgln:061411123456..2199023255552"));
   (C_SGTIN, (lit "urn:epc:id:sgtin:50712192365.88..%25:.13%26"));
   (C_SGTIN, (lit "urn:epc:id:sgtin:00000000000.00.0"));
   (C_SGTIN, (lit "urn:epc:id:sgtin:507121923656.1..%25:.13%26"));
   (C_SGTIN, (lit "urn:epc:id:sgtin:507124.1123456..%25:.13%26"));
   (C_SSCC, (lit "urn:epc:id:sscc:0614141.1234567890"));
   (C_SSCC, (lit "urn:epc:id:sscc:061414.12345678901"));
   (C_SSCC, (lit "urn:epc:id:sscc:061414123456.12345"));
   (C_SSCC, (lit "urn:epc:id:sscc:061414123456.00000"));
   (C_UPUI, (lit "urn:epc:id:upui:1234567.089456.51qIgY)%3C%26Jp3*j7'SDB"));
   (C_UPUI, (lit "urn:epc:id:upui:123456.0894567.51qIgY)%3C%26Jp3*j7'SDB"));
   (C_UPUI, (lit "urn:epc:id:upui:123456789012.0.51qIgY)%3C%26Jp3*j7'SDB"));
   (C_UPUI, (lit "urn:epc:id:upui:123456789012.0.0123456789012346578901234657"));
   (C_UPUI, (lit "urn:epc:id:upui:123456789012.0.0"));
   (C_USDOD, (lit "urn:epc:id:usdod:2S194.12345678901"));
   (C_USDOD, (lit "urn:epc:id:usdod:2S194.0"));
   (C_USDOD, (lit "urn:epc:id:usdod:2S1941.0"));
   (C_USDOD, (lit "urn:epc:id:usdod:2S194.68719476735"))].
Definition init_invalid : list (cls * str) :=
  [(C_ADI, (lit "urn:epc:id:aldi:W81X9C.3KL984PX1.2WMA52"));
   (C_ADI, (lit "urn:epc:id:adi:2S194..%23"));
   (C_ADI, (lit "urn:epc:id:adi:W81X9C.3KL984PX1.2%232WMA52"));
   (C_ADI, (lit "urn:epc:id:adi:W81I9C.3KL984IPX1.2"));
   (C_ADI, (lit "urn:epc:id:adi:W89C.3KL984IPX1.2"));
   (C_ADI, (lit "urn:epc:id:adi:W8AAA9C.3KL984IPX1.2"));
   (C_ADI, (lit "urn:epc:id:adi:W8AA9C.012345678901234567890123456789012.2"));
   (C_ADI, (lit "urn:epc:id:adi:W8AA9C.123.0123456789012345678901234567891"));
   (C_BIC, (lit "urn:epc:id:bic:CSQJ30543831"));
   (C_BIC, (lit "urn:epc:id:bic:CSQA3054383"));
   (C_BIC, (lit "urn:epc:id:bic:CSQJA054383"));
   (C_BIC, (lit "urn:epc:id:bic:CSIJ3054381"));
   (C_CPI, (lit "urn:epc:id:ci:0614141.123456.0"));
   (C_CPI, (lit "urn:epc:id:cpi:0614141.123456.01"));
   (C_CPI, (lit "urn:epc:id:cpi:0614141.123456.2%232WMA52"));
   (C_CPI, (lit "urn:epc:id:cpi:06%231141.123456.22252"));
   (C_CPI, (lit "urn:epc:id:cpi:0641411231321.1%231456.123456789"));
   (C_CPI, (lit "urn:epc:id:cpi:01234.1%231456.123456789"));
   (C_CPI, (lit "urn:epc:id:cpi:0614141.1%231456.1234567891231"));
   (C_GDTI, (lit "urn:epc:id:gti:0614141.12345.40000000000000000"));
   (C_GDTI, (lit "urn:epc:id:gdti:0614141.12345.400000000000000000"));
   (C_GDTI, (lit "urn:epc:id:gdti:0614141.123456.40000000000000000"));
   (C_GDTI, (lit "urn:epc:id:gdti:0614141.12345.ABCD1%23234%2F"));
   (C_GDTI, (lit "urn:epc:id:gdti:06141.1123451.40000000000000000"));
   (C_GIAI, (lit "urn:epc:id:gai:061411.01ABc%2FD"));
   (C_GIAI, (lit "urn:epc:id:giai:06141.1ABc%2FD"));
   (C_GIAI, (lit "urn:epc:id:giai:0614111111111.1ABc%2FD"));
   (C_GIAI, (lit "urn:epc:id:giai:012345.0123456789012345678901234"));
   (C_GIAI, (lit "urn:epc:id:giai:012345.0123456789012345678901234"));
   (C_GIAI, (lit "urn:epc:id:giai:012345678901.0123456789012345678"));
   (C_GID, (lit "urn:epc:id:gi:0614141.123456.0"));
   (C_GID, (lit "urn:epc:id:gid:95100000.12345.01"));
   (C_GID, (lit "urn:epc:id:gid:95100000..10"));
   (C_GID, (lit "urn:epc:id:gid:.0.0"));
   (C_GID, (lit "urn:epc:id:gid:01.0.0"));
   (C_GID, (lit "urn:epc:id:gid:0.01.0"));
   (C_GID, (lit "urn:epc:id:gid:268435455.16777215.68719476736"));
   (C_GID, (lit "urn:epc:id:gid:268435456.16777215.68719476735"));
   (C_GID, (lit "urn:epc:id:gid:268435455.16777216.68719476735"));
   (C_GINC, (lit "urn:epc:id:gnc:061411.01ABc%2FD"));
   (C_GINC, (lit "urn:epc:id:ginc:06141.01ABc%2FD"));
   (C_GINC, (lit "urn:epc:id:ginc:0614117890123.01ABc%2FD"));
   (C_GINC, (lit "urn:epc:id:ginc:012345.0123456789012345678901234"));
   (C_GINC, (lit "urn:epc:id:ginc:012345.0123456789012345678901234"));
   (C_GINC, (lit "urn:epc:id:ginc:012345678901.0123456789012345678"));
   (C_GRAI, (lit "urn:epc:id:gai:0614141.12345.400"));
   (C_GRAI, (lit "urn:epc:id:grai:0614141.12345.40000000000000000"));
   (C_GRAI, (lit "urn:epc:id:grai:0614141132456..0"));
   (C_GRAI, (lit "urn:epc:id:grai:06141.6789012.01"));
   (C_GRAI, (lit "urn:epc:id:grai:0614141.12345.ABCD1234%23"));
   (C_GRAI, (lit "urn:epc:id:grai:061414113245.."));
   (C_GRAI, (lit "urn:epc:id:grai:0614141.12345.ABCDEFGHIJKLMNOPQ"));
   (C_GSIN, (lit "urn:epc:id:gsn:999999.9999999999"));
   (C_GSIN, (lit "urn:epc:id:gsin:9999999999999.999"));
   (C_GSIN, (lit "urn:epc:id:gsin:99999.99999999999"));
   (C_GSIN, (lit "urn:epc:id:gsin:0123456789:0123456"));
   (C_GSIN, (lit "urn:epc:id:gsin:0123456789:01234"));
   (C_GSIN, (lit "urn:epc:id:gsin:0123456789:0123A4"));
   (C_GSRN, (lit "urn:epc:id:gsrnp:0614141.1234567890"));
   (C_GSRN, (lit "urn:epc:id:gsrn:00000.000000000000"));
   (C_GSRN, (lit "urn:epc:id:gsrn:0000000000000.0000"));
   (C_GSRN, (lit "urn:epc:id:gsrn:99A999.99999999999"));
   (C_GSRN, (lit "urn:epc:id:gsrn:999999.9999999A999"));
   (C_GSRN, (lit "urn:epc:id:gsrn:999999.9"));
   (C_GSRN, (lit "urn:epc:id:gsrn:999999.999999999999"));
   (C_GSRNP, (lit "urn:epc:id:gsrnpp:0614141.1234567890"));
   (C_GSRNP, (lit "urn:epc:id:gsrnp:00000.000000000000"));
   (C_GSRNP, (lit "urn:epc:id:gsrnp:0000000000000.0000"));
   (C_GSRNP, (lit "urn:epc:id:gsrnp:99A999.99999999999"));
   (C_GSRNP, (lit "urn:epc:id:gsrnp:999999.9999999A999"));
   (C_GSRNP, (lit "urn:epc:id:gsrnp:999999.9"));
   (C_GSRNP, (lit "urn:epc:id:gsrnp:999999.999999999999"));
   (C_IMOVN, (lit "urn:epc:id:imvn:9176187"));
   (C_IMOVN, (lit "urn:epc:id:imovn:91761877"));
   (C_IMOVN, (lit "urn:epc:id:imovn:917618"));
   (C_IMOVN, (lit "urn:epc:id:imovn:91761A7"));
   (C_ITIP, (lit "urn:epc:id:itp:012345678901.0.00.00.01234567890123456789"));
   (C_ITIP, (lit "urn:epc:id:itip:012345678901.0.00.00.012345678901234567890"));
   (C_ITIP, (lit "urn:epc:id:itip:012345678901.0.00.00."));
   (C_ITIP, (lit "urn:epc:id:itip:01234.01234567.00.00.01234567890123456789"));
   (C_ITIP, (lit "urn:epc:id:itip:0123456789012.0.00.00.01234567890123456789"));
   (C_ITIP, (lit "urn:epc:id:itip:012345678901.0.0.00.ABCDEFGHIJKLMNOP%2FRST"));
   (C_ITIP, (lit "urn:epc:id:itip:012345678901.0.000.00.ABCDEFGHIJKLMNOP%2FRST"));
   (C_ITIP, (lit "urn:epc:id:itip:012345678901.0.00.0.ABCDEFGHIJKLMNOP%2FRST"));
   (C_ITIP, (lit "urn:epc:id:itip:012345678901.0.00.000.ABCDEFGHIJKLMNOP%2FRST"));
   (C_LGTIN, (lit "urn:epc:class:lgtn:06141.10123456.xyz3311cba"));
   (C_LGTIN, (lit "urn:epc:class:lgtin:06141.10123456.01ABc%2FD"));
   (C_LGTIN, (lit "urn:epc:class:lgtin:0614140123456.0.1"));
   (C_LGTIN, (lit "urn:epc:class:lgtin:06141.0.01ABc%2FD"));
   (C_LGTIN, (lit "urn:epc:class:lgtin:012345.0123456.012345678901234567890"));
   (C_PGLN, (lit "urn:epc:id:gln:012345678901."));
   (C_PGLN, (lit "urn:epc:id:pgln:01234.5678901"));
   (C_PGLN, (lit "urn:epc:id:pgln:0123456789012."));
   (C_PGLN, (lit "urn:epc:id:pgln:012345.5678901"));
   (C_PGLN, (lit "urn:epc:id:pgln:01234.567A01"));
   (C_SGCN, (lit "urn:epc:id:scn:4012345.67890.04711"));
   (C_SGCN, (lit "urn:epc:id:sgcn:4012345123451..1"));
   (C_SGCN, (lit "urn:epc:id:sgcn:40123.1123465.999999999999"));
   (C_SGCN, (lit "urn:epc:id:sgcn:401231.123465.9999999999999"));
   (C_SGCN, (lit "urn:epc:id:sgcn:401231.123465."));
   (C_SGCN, (lit "urn:epc:id:sgcn:401231.123465.999ABCD999999"));
   (C_SGLN, (lit "urn:epc:id:sgn:0614141.12345.400"));
   (C_SGLN, (lit "urn:epc:id:sgln:06141.1234567.400"));
   (C_SGLN, (lit "urn:epc:id:sgln:0614112222222..400"));
   (C_SGLN, (lit "urn:epc:id:sgln:061411123456..A%2F-BCDEFGHIJKLMNOPQRS"));
   (C_SGLN, (lit "urn:epc:id:sgln:0614141.12345."));
   (C_SGTIN, (lit "urn:epc:id:sgtin:50712192365.88..%23:.13%26"));
   (C_SGTIN, (lit "urn:epc:id:sg:50712192365.88..%25:.13%26"));
   (C_SGTIN, (lit "urn:epc:id:sgtin:50712.11123456..%25:.13%26"));
   (C_SGTIN, (lit "urn:epc:id:sgtin:5071241234567.0..%25:.13%26"));
   (C_SGTIN, (lit "urn:epc:id:sgtin:000000000000.00.0"));
   (C_SGTIN, (lit "urn:epcid:sgtin:00000000000.00.0"));
   (C_SGTIN, (lit "urn:epc:id:sgtin:00000000000.00.123456789012345678901"));
   (C_SSCC, (lit "urn:epc:id:ssc:0614141.1234567890"));
   (C_SSCC, (lit "urn:epc:id:sscc:06141.112345678901"));
   (C_SSCC, (lit "urn:epc:id:sscc:0614141234567.2345"));
   (C_UPUI, (lit "urn:epc:id:upi:123456789012.0.0"));
   (C_UPUI, (lit "urn:epc:id:upui:12346.0894567.51qIgY)%3C%26Jp3*j7'SDB"));
   (C_UPUI, (lit "urn:epc:id:upui:1234567890123.0.51qIgY)%3C%26Jp3*j7'SDB"));
   (C_UPUI, (lit "urn:epc:id:upui:123456789012.0.01234567890123465789012346578"));
   (C_UPUI, (lit "urn:epc:id:upui:123456789012.0.012345678901234%23"));
   (C_USDOD, (lit "urn:epc:id:dod:2S194.12345678901"));
   (C_USDOD, (lit "urn:epc:id:usdod:2S194.123456789012"));
   (C_USDOD, (lit "urn:epc:id:usdod:2S194.68719476736"));
   (C_USDOD, (lit "urn:epc:id:usdod:2S19.68719476735"));
   (C_USDOD, (lit "urn:epc:id:usdod:2S19411.68719476735"));
   (C_USDOD, (lit "urn:epc:id:usdod:2S1I1.68719476735"))].
Example init_valid_ok : forallb (fun '(c, u) => ok_uri (init_of c u) u) init_valid = true.
Proof. vm_compute. reflexivity. Qed.
Example init_invalid_ok : forallb (fun '(c, u) => is_convert (init_of c u)) init_invalid = true.
Proof. vm_compute. reflexivity. Qed.

(** TestGS1ElementMeta, 88 valid and 6 invalid *)
Definition element_valid : list (cls * str * option gtin_type * option str * str * Z) :=
  [(C_CPI, (lit "urn:epc:id:cpi:0614141.123ABC.123456789"), None, None, (lit "(8010)0614141123ABC(8011)123456789"), 7%Z);
   (C_CPI, (lit "urn:epc:id:cpi:0614141.12-456.123456789"), None, None, (lit "(8010)061414112-456(8011)123456789"), 7%Z);
   (C_CPI, (lit "urn:epc:id:cpi:0614141.1%231456.123456789"), None, None, (lit "(8010)06141411#1456(8011)123456789"), 7%Z);
   (C_CPI, (lit "urn:epc:id:cpi:06141412.123456.0"), None, None, (lit "(8010)06141412123456(8011)0"), 8%Z);
   (C_GDTI, (lit "urn:epc:id:gdti:0614141.12345.ABCD1234%2F"), None, (Some (lit "0614141123452ABCD1234/")), (lit "(253)0614141123452ABCD1234/"), 7%Z);
   (C_GDTI, (lit "urn:epc:id:gdti:0614141.12345.40000000000000000"), None, (Some (lit "061414112345240000000000000000")), (lit "(253)061414112345240000000000000000"), 7%Z);
   (C_GDTI, (lit "urn:epc:id:gdti:0614141.12345.0"), None, (Some (lit "06141411234520")), (lit "(253)06141411234520"), 7%Z);
   (C_GDTI, (lit "urn:epc:id:gdti:061414.123451.40000000000000000"), None, (Some (lit "061414123451640000000000000000")), (lit "(253)061414123451640000000000000000"), 6%Z);
   (C_GIAI, (lit "urn:epc:id:giai:0614141.12345400"), None, (Some (lit "061414112345400")), (lit "(8004)061414112345400"), 7%Z);
   (C_GIAI, (lit "urn:epc:id:giai:0614141.0"), None, (Some (lit "06141410")), (lit "(8004)06141410"), 7%Z);
   (C_GIAI, (lit "urn:epc:id:giai:0614141.1ABc%2FD"), None, (Some (lit "06141411ABc/D")), (lit "(8004)06141411ABc/D"), 7%Z);
   (C_GIAI, (lit "urn:epc:id:giai:061411.01ABc%2FD"), None, (Some (lit "06141101ABc/D")), (lit "(8004)06141101ABc/D"), 6%Z);
   (C_GIAI, (lit "urn:epc:id:giai:012345.012345678901234567890123"), None, (Some (lit "012345012345678901234567890123")), (lit "(8004)012345012345678901234567890123"), 6%Z);
   (C_GIAI, (lit "urn:epc:id:giai:012345678901.012345678901234567"), None, (Some (lit "012345678901012345678901234567")), (lit "(8004)012345678901012345678901234567"), 12%Z);
   (C_GINC, (lit "urn:epc:id:ginc:0614141.xyz3311cba"), None, (Some (lit "0614141xyz3311cba")), (lit "(401)0614141xyz3311cba"), 7%Z);
   (C_GINC, (lit "urn:epc:id:ginc:0614141.0"), None, (Some (lit "06141410")), (lit "(401)06141410"), 7%Z);
   (C_GINC, (lit "urn:epc:id:ginc:0614141.01"), None, (Some (lit "061414101")), (lit "(401)061414101"), 7%Z);
   (C_GINC, (lit "urn:epc:id:ginc:061411.01ABc%2FD"), None, (Some (lit "06141101ABc/D")), (lit "(401)06141101ABc/D"), 6%Z);
   (C_GINC, (lit "urn:epc:id:ginc:012345.012345678901234567890123"), None, (Some (lit "012345012345678901234567890123")), (lit "(401)012345012345678901234567890123"), 6%Z);
   (C_GINC, (lit "urn:epc:id:ginc:012345678901.012345678901234567"), None, (Some (lit "012345678901012345678901234567")), (lit "(401)012345678901012345678901234567"), 12%Z);
   (C_GRAI, (lit "urn:epc:id:grai:0614141.12345.400"), None, (Some (lit "0614141123452400")), (lit "(8003)00614141123452400"), 7%Z);
   (C_GRAI, (lit "urn:epc:id:grai:0614141.12345.4000000000000000"), None, (Some (lit "06141411234524000000000000000")), (lit "(8003)006141411234524000000000000000"), 7%Z);
   (C_GRAI, (lit "urn:epc:id:grai:061414113245..0"), None, (Some (lit "06141411324540")), (lit "(8003)006141411324540"), 12%Z);
   (C_GRAI, (lit "urn:epc:id:grai:061414113245..01"), None, (Some (lit "061414113245401")), (lit "(8003)0061414113245401"), 12%Z);
   (C_GRAI, (lit "urn:epc:id:grai:0614141.12345.ABCD1234%2F"), None, (Some (lit "0614141123452ABCD1234/")), (lit "(8003)00614141123452ABCD1234/"), 7%Z);
   (C_GRAI, (lit "urn:epc:id:grai:061414113245..274877906944"), None, (Some (lit "0614141132454274877906944")), (lit "(8003)00614141132454274877906944"), 12%Z);
   (C_GRAI, (lit "urn:epc:id:grai:0614141.12345.ABCDEFGHIJKLMNOP"), None, (Some (lit "0614141123452ABCDEFGHIJKLMNOP")), (lit "(8003)00614141123452ABCDEFGHIJKLMNOP"), 7%Z);
   (C_GSIN, (lit "urn:epc:id:gsin:0614141.123456789"), None, (Some (lit "06141411234567890")), (lit "(402)06141411234567890"), 7%Z);
   (C_GSIN, (lit "urn:epc:id:gsin:061414112345.0123"), None, (Some (lit "06141411234501238")), (lit "(402)06141411234501238"), 12%Z);
   (C_GSIN, (lit "urn:epc:id:gsin:061414.0123456789"), None, (Some (lit "06141401234567891")), (lit "(402)06141401234567891"), 6%Z);
   (C_GSIN, (lit "urn:epc:id:gsin:061414.0000000000"), None, (Some (lit "06141400000000006")), (lit "(402)06141400000000006"), 6%Z);
   (C_GSIN, (lit "urn:epc:id:gsin:000000.0000000000"), None, (Some (lit "00000000000000000")), (lit "(402)00000000000000000"), 6%Z);
   (C_GSIN, (lit "urn:epc:id:gsin:999999999999.9999"), None, (Some (lit "99999999999999992")), (lit "(402)99999999999999992"), 12%Z);
   (C_GSIN, (lit "urn:epc:id:gsin:999999.9999999999"), None, (Some (lit "99999999999999992")), (lit "(402)99999999999999992"), 6%Z);
   (C_GSRN, (lit "urn:epc:id:gsrn:0614141.1234567890"), None, (Some (lit "061414112345678902")), (lit "(8018)061414112345678902"), 7%Z);
   (C_GSRN, (lit "urn:epc:id:gsrn:012345678901.01234"), None, (Some (lit "012345678901012342")), (lit "(8018)012345678901012342"), 12%Z);
   (C_GSRN, (lit "urn:epc:id:gsrn:000000.00000000000"), None, (Some (lit "000000000000000000")), (lit "(8018)000000000000000000"), 6%Z);
   (C_GSRN, (lit "urn:epc:id:gsrn:000000000000.00000"), None, (Some (lit "000000000000000000")), (lit "(8018)000000000000000000"), 12%Z);
   (C_GSRN, (lit "urn:epc:id:gsrn:999999999999.99999"), None, (Some (lit "999999999999999995")), (lit "(8018)999999999999999995"), 12%Z);
   (C_GSRN, (lit "urn:epc:id:gsrn:999999.99999999999"), None, (Some (lit "999999999999999995")), (lit "(8018)999999999999999995"), 6%Z);
   (C_GSRNP, (lit "urn:epc:id:gsrnp:0614141.1234567890"), None, (Some (lit "061414112345678902")), (lit "(8017)061414112345678902"), 7%Z);
   (C_GSRNP, (lit "urn:epc:id:gsrnp:012345678901.01234"), None, (Some (lit "012345678901012342")), (lit "(8017)012345678901012342"), 12%Z);
   (C_GSRNP, (lit "urn:epc:id:gsrnp:000000.00000000000"), None, (Some (lit "000000000000000000")), (lit "(8017)000000000000000000"), 6%Z);
   (C_GSRNP, (lit "urn:epc:id:gsrnp:000000000000.00000"), None, (Some (lit "000000000000000000")), (lit "(8017)000000000000000000"), 12%Z);
   (C_GSRNP, (lit "urn:epc:id:gsrnp:999999999999.99999"), None, (Some (lit "999999999999999995")), (lit "(8017)999999999999999995"), 12%Z);
   (C_GSRNP, (lit "urn:epc:id:gsrnp:999999.99999999999"), None, (Some (lit "999999999999999995")), (lit "(8017)999999999999999995"), 6%Z);
   (C_ITIP, (lit "urn:epc:id:itip:4012345.012345.01.02.987"), None, None, (lit "(8006)040123451234560102(21)987"), 7%Z);
   (C_ITIP, (lit "urn:epc:id:itip:0123456.012345.00.00.01234567890123456789"), None, None, (lit "(8006)001234561234580000(21)01234567890123456789"), 7%Z);
   (C_ITIP, (lit "urn:epc:id:itip:012345678901.0.00.00.01234567890123456789"), None, None, (lit "(8006)001234567890120000(21)01234567890123456789"), 12%Z);
   (C_ITIP, (lit "urn:epc:id:itip:012345678901.0.00.00.ABCDEFGHIJKLMNOP%2FRST"), None, None, (lit "(8006)001234567890120000(21)ABCDEFGHIJKLMNOP/RST"), 12%Z);
   (C_LGTIN, (lit "urn:epc:class:lgtin:50712192365.88..%25:.13%26"), None, (Some (lit "85071219236581")), (lit "(01)85071219236581(10).%:.13&"), 11%Z);
   (C_LGTIN, (lit "urn:epc:class:lgtin:00000000000.00.0"), None, (Some (lit "00000000000000")), (lit "(01)00000000000000(10)0"), 11%Z);
   (C_LGTIN, (lit "urn:epc:class:lgtin:5019265.123588..%25:.13%26"), None, (Some (lit "15019265235883")), (lit "(01)15019265235883(10).%:.13&"), 7%Z);
   (C_LGTIN, (lit "urn:epc:class:lgtin:00000950.01093.Serial"), (Some GTIN13), (Some (lit "0000095010939")), (lit "(01)00000095010939(10)Serial"), 8%Z);
   (C_LGTIN, (lit "urn:epc:class:lgtin:00000950.01093.Serial"), (Some GTIN12), (Some (lit "000095010939")), (lit "(01)00000095010939(10)Serial"), 8%Z);
   (C_LGTIN, (lit "urn:epc:class:lgtin:00000950.01093.Serial"), (Some GTIN8), (Some (lit "95010939")), (lit "(01)00000095010939(10)Serial"), 8%Z);
   (C_PGLN, (lit "urn:epc:id:pgln:1234567.89012"), None, (Some (lit "1234567890128")), (lit "(417)1234567890128"), 7%Z);
   (C_PGLN, (lit "urn:epc:id:pgln:012345678901."), None, (Some (lit "0123456789012")), (lit "(417)0123456789012"), 12%Z);
   (C_PGLN, (lit "urn:epc:id:pgln:01234567890.0"), None, (Some (lit "0123456789005")), (lit "(417)0123456789005"), 11%Z);
   (C_PGLN, (lit "urn:epc:id:pgln:0123456789.01"), None, (Some (lit "0123456789012")), (lit "(417)0123456789012"), 10%Z);
   (C_PGLN, (lit "urn:epc:id:pgln:012345.012345"), None, (Some (lit "0123450123454")), (lit "(417)0123450123454"), 6%Z);
   (C_SGCN, (lit "urn:epc:id:sgcn:4012345.67890.04711"), None, (Some (lit "401234567890104711")), (lit "(255)401234567890104711"), 7%Z);
   (C_SGCN, (lit "urn:epc:id:sgcn:4012345.67890.0"), None, (Some (lit "40123456789010")), (lit "(255)40123456789010"), 7%Z);
   (C_SGCN, (lit "urn:epc:id:sgcn:4012345.67890.01"), None, (Some (lit "401234567890101")), (lit "(255)401234567890101"), 7%Z);
   (C_SGCN, (lit "urn:epc:id:sgcn:401234512345..1"), None, (Some (lit "40123451234561")), (lit "(255)40123451234561"), 12%Z);
   (C_SGCN, (lit "urn:epc:id:sgcn:401231.123465.999999999999"), None, (Some (lit "4012311234650999999999999")), (lit "(255)4012311234650999999999999"), 6%Z);
   (C_SGLN, (lit "urn:epc:id:sgln:0614141.12345.400"), None, (Some (lit "0614141123452")), (lit "(414)0614141123452(254)400"), 7%Z);
   (C_SGLN, (lit "urn:epc:id:sgln:0614141.12345.0"), None, (Some (lit "0614141123452")), (lit "(414)0614141123452(254)0"), 7%Z);
   (C_SGLN, (lit "urn:epc:id:sgln:0614141.12345.01"), None, (Some (lit "0614141123452")), (lit "(414)0614141123452(254)01"), 7%Z);
   (C_SGLN, (lit "urn:epc:id:sgln:061411.012345.01"), None, (Some (lit "0614110123452")), (lit "(414)0614110123452(254)01"), 6%Z);
   (C_SGLN, (lit "urn:epc:id:sgln:061411123456..01"), None, (Some (lit "0614111234560")), (lit "(414)0614111234560(254)01"), 12%Z);
   (C_SGLN, (lit "urn:epc:id:sgln:061411123456..A%2F-BCDEFGHIJKLMNOPQR"), None, (Some (lit "0614111234560")), (lit "(414)0614111234560(254)A/-BCDEFGHIJKLMNOPQR"), 12%Z);
   (C_SGLN, (lit "urn:epc:id:sgln:061411123456..2199023255552"), None, (Some (lit "0614111234560")), (lit "(414)0614111234560(254)2199023255552"), 12%Z);
   (C_SGTIN, (lit "urn:epc:id:sgtin:50712192365.88..%25:.13%26"), None, (Some (lit "85071219236581")), (lit "(01)85071219236581(21).%:.13&"), 11%Z);
   (C_SGTIN, (lit "urn:epc:id:sgtin:00000000000.00.0"), None, (Some (lit "00000000000000")), (lit "(01)00000000000000(21)0"), 11%Z);
   (C_SGTIN, (lit "urn:epc:id:sgtin:5019265.123588..%25:.13%26"), None, (Some (lit "15019265235883")), (lit "(01)15019265235883(21).%:.13&"), 7%Z);
   (C_SGTIN, (lit "urn:epc:id:sgtin:00000950.01093.Serial"), (Some GTIN13), (Some (lit "0000095010939")), (lit "(01)00000095010939(21)Serial"), 8%Z);
   (C_SGTIN, (lit "urn:epc:id:sgtin:00000950.01093.Serial"), (Some GTIN12), (Some (lit "000095010939")), (lit "(01)00000095010939(21)Serial"), 8%Z);
   (C_SGTIN, (lit "urn:epc:id:sgtin:00000950.01093.Serial"), (Some GTIN8), (Some (lit "95010939")), (lit "(01)00000095010939(21)Serial"), 8%Z);
   (C_SSCC, (lit "urn:epc:id:sscc:0614141.1234567890"), None, (Some (lit "106141412345678908")), (lit "(00)106141412345678908"), 7%Z);
   (C_SSCC, (lit "urn:epc:id:sscc:061414.12345678901"), None, (Some (lit "106141423456789018")), (lit "(00)106141423456789018"), 6%Z);
   (C_SSCC, (lit "urn:epc:id:sscc:061414123456.12345"), None, (Some (lit "106141412345623458")), (lit "(00)106141412345623458"), 12%Z);
   (C_SSCC, (lit "urn:epc:id:sscc:061414123456.00000"), None, (Some (lit "006141412345600001")), (lit "(00)006141412345600001"), 12%Z);
   (C_UPUI, (lit "urn:epc:id:upui:1234567.089456.51qIgY)%3C%26Jp3*j7'SDB"), None, None, (lit "(01)01234567894560(235)51qIgY)<&Jp3*j7'SDB"), 7%Z);
   (C_UPUI, (lit "urn:epc:id:upui:123456.0894567.51qIgY)%3C%26Jp3*j7'SDB"), None, None, (lit "(01)01234568945674(235)51qIgY)<&Jp3*j7'SDB"), 6%Z);
   (C_UPUI, (lit "urn:epc:id:upui:123456789012.0.51qIgY)%3C%26Jp3*j7'SDB"), None, None, (lit "(01)01234567890128(235)51qIgY)<&Jp3*j7'SDB"), 12%Z);
   (C_UPUI, (lit "urn:epc:id:upui:123456789012.0.0123456789012346578901234657"), None, None, (lit "(01)01234567890128(235)0123456789012346578901234657"), 12%Z);
   (C_UPUI, (lit "urn:epc:id:upui:123456789012.0.0"), None, None, (lit "(01)01234567890128(235)0"), 12%Z)].
Definition key_invalid : list (cls * str * option gtin_type) :=
  [(C_LGTIN, (lit "urn:epc:class:lgtin:5019265.123588..%25:.13%26"), (Some GTIN13));
   (C_LGTIN, (lit "urn:epc:class:lgtin:1519265.023588..%25:.13%26"), (Some GTIN12));
   (C_LGTIN, (lit "urn:epc:class:lgtin:0000565.023588..%25:.13%26"), (Some GTIN8));
   (C_SGTIN, (lit "urn:epc:id:sgtin:5019265.123588..%25:.13%26"), (Some GTIN13));
   (C_SGTIN, (lit "urn:epc:id:sgtin:1519265.023588..%25:.13%26"), (Some GTIN12));
   (C_SGTIN, (lit "urn:epc:id:sgtin:0000565.023588..%25:.13%26"), (Some GTIN8))].
Example element_valid_ok : forallb (fun '(c, u, t, k, g, l) =>
    oall k (fun k => ok_str (let* e := init_of c u in epc_gs1_key e t) k) &&
    ok_str (let* e := init_of c u in epc_gs1_element_string e) g &&
    ok_uri (from_gs1_element_string_of c g l) u) element_valid = true.
Proof. vm_compute. reflexivity. Qed.
Example key_invalid_ok : forallb (fun '(c, u, t) =>
    match init_of c u with Ok e => is_convert (epc_gs1_key e t) | _ => false end) key_invalid = true.
Proof. vm_compute. reflexivity. Qed.

(** TestTagEncodableMeta, 72 valid and 21 invalid *)
Definition tag_valid : list (cls * str * (epc -> option tagreq) * str * str) :=
  [(C_ADI, (lit "urn:epc:id:adi:W81X9C.3KL984PX1.2WMA-52"), (fun e => match e with E_ADI x => Some (T_ADI x ADI_VAR 5) | _ => None end), (lit "urn:epc:tag:adi-var:5.W81X9C.3KL984PX1.2WMA-52"), (lit "3B157E316390F32CCE78D106310325CD06DD7200"));
   (C_ADI, (lit "urn:epc:id:adi:2S194..12345678901"), (fun e => match e with E_ADI x => Some (T_ADI x ADI_VAR 23) | _ => None end), (lit "urn:epc:tag:adi-var:23.2S194..12345678901"), (lit "3B5E0C93C79D00C72CF4D76DF8E70C40"));
   (C_ADI, (lit "urn:epc:id:adi:W81X9C.3KL984PX1.%232WMA52"), (fun e => match e with E_ADI x => Some (T_ADI x ADI_VAR 12) | _ => None end), (lit "urn:epc:tag:adi-var:12.W81X9C.3KL984PX1.%232WMA52"), (lit "3B317E316390F32CCE78D10631023C97341D7200"));
   (C_ADI, (lit "urn:epc:id:adi:W81X9C.3KL984PX1.%232WM%2FA52"), (fun e => match e with E_ADI x => Some (T_ADI x ADI_VAR 1) | _ => None end), (lit "urn:epc:tag:adi-var:1.W81X9C.3KL984PX1.%232WM%2FA52"), (lit "3B057E316390F32CCE78D10631023C9736F075C80000"));
   (C_CPI, (lit "urn:epc:id:cpi:0614141.12-456.123456789"), (fun e => match e with E_CPI x => Some (T_CPI x CPI_VAR 0) | _ => None end), (lit "urn:epc:tag:cpi-var:0.0614141.12-456.123456789"), (lit "3D14257BF71CADD35D8000075BCD1500"));
   (C_CPI, (lit "urn:epc:id:cpi:0614141.123456.0"), (fun e => match e with E_CPI x => Some (T_CPI x CPI_96 1) | _ => None end), (lit "urn:epc:tag:cpi-96:1.0614141.123456.0"), (lit "3C34257BF400F12000000000"));
   (C_CPI, (lit "urn:epc:id:cpi:0614141.1234567890.0"), (fun e => match e with E_CPI x => Some (T_CPI x CPI_VAR 1) | _ => None end), (lit "urn:epc:tag:cpi-var:1.0614141.1234567890.0"), (lit "3D34257BF71CB3D35DB7E39C000000000000"));
   (C_CPI, (lit "urn:epc:id:cpi:0614141.123467890.100000000000"), (fun e => match e with E_CPI x => Some (T_CPI x CPI_VAR 5) | _ => None end), (lit "urn:epc:tag:cpi-var:5.0614141.123467890.100000000000"), (lit "3DB4257BF71CB3D36DF8E70005D21DBA0000"));
   (C_GDTI, (lit "urn:epc:id:gdti:0614141.12345.ABCD1234%2F"), (fun e => match e with E_GDTI x => Some (T_GDTI x GDTI_174 0) | _ => None end), (lit "urn:epc:tag:gdti-174:0.0614141.12345.ABCD1234%2F"), (lit "3E14257BF460730614388C593368BC00000000000000"));
   (C_GDTI, (lit "urn:epc:id:gdti:0614141.12345.2199023255551"), (fun e => match e with E_GDTI x => Some (T_GDTI x GDTI_96 2) | _ => None end), (lit "urn:epc:tag:gdti-96:2.0614141.12345.2199023255551"), (lit "2C54257BF46073FFFFFFFFFF"));
   (C_GDTI, (lit "urn:epc:id:gdti:0614141.12345.2199023255552"), (fun e => match e with E_GDTI x => Some (T_GDTI x GDTI_174 2) | _ => None end), (lit "urn:epc:tag:gdti-174:2.0614141.12345.2199023255552"), (lit "3E54257BF46072C98B972C193364D5AB56AC80000000"));
   (C_GDTI, (lit "urn:epc:id:gdti:0614141.12345.0"), (fun e => match e with E_GDTI x => Some (T_GDTI x GDTI_96 6) | _ => None end), (lit "urn:epc:tag:gdti-96:6.0614141.12345.0"), (lit "2CD4257BF460720000000000"));
   (C_GIAI, (lit "urn:epc:id:giai:0614141.12345400"), (fun e => match e with E_GIAI x => Some (T_GIAI x GIAI_202 1) | _ => None end), (lit "urn:epc:tag:giai-202:1.0614141.12345400"), (lit "3834257BF58B266D1AB460C00000000000000000000000000000"));
   (C_GIAI, (lit "urn:epc:id:giai:0614141.0"), (fun e => match e with E_GIAI x => Some (T_GIAI x GIAI_96 1) | _ => None end), (lit "urn:epc:tag:giai-96:1.0614141.0"), (lit "3434257BF400000000000000"));
   (C_GIAI, (lit "urn:epc:id:giai:0614141.1ABc%2FD"), (fun e => match e with E_GIAI x => Some (T_GIAI x GIAI_202 0) | _ => None end), (lit "urn:epc:tag:giai-202:0.0614141.1ABc%2FD"), (lit "3814257BF58C1858D7C400000000000000000000000000000000"));
   (C_GIAI, (lit "urn:epc:id:giai:061411.01ABc%2FD"), (fun e => match e with E_GIAI x => Some (T_GIAI x GIAI_202 4) | _ => None end), (lit "urn:epc:tag:giai-202:4.061411.01ABc%2FD"), (lit "38983BF8D831830B1AF880000000000000000000000000000000"));
   (C_GIAI, (lit "urn:epc:id:giai:012345.012345678901234567890123"), (fun e => match e with E_GIAI x => Some (T_GIAI x GIAI_202 1) | _ => None end), (lit "urn:epc:tag:giai-202:1.012345.012345678901234567890123"), (lit "38380C0E583164CDA356CDDC3960C593368D5B3770E583164CC0"));
   (C_GIAI, (lit "urn:epc:id:giai:0614141.12345400"), (fun e => match e with E_GIAI x => Some (T_GIAI x GIAI_96 1) | _ => None end), (lit "urn:epc:tag:giai-96:1.0614141.12345400"), (lit "3434257BF400000000BC6038"));
   (C_GIAI, (lit "urn:epc:id:giai:0614141.02"), (fun e => match e with E_GIAI x => Some (T_GIAI x GIAI_202 1) | _ => None end), (lit "urn:epc:tag:giai-202:1.0614141.02"), (lit "3834257BF5832000000000000000000000000000000000000000"));
   (C_GID, (lit "urn:epc:id:gid:95100000.12345.400"), (fun e => match e with E_GID x => Some (T_GID x GID_96) | _ => None end), (lit "urn:epc:tag:gid-96:95100000.12345.400"), (lit "355AB1C60003039000000190"));
   (C_GID, (lit "urn:epc:id:gid:95100000.12345.0"), (fun e => match e with E_GID x => Some (T_GID x GID_96) | _ => None end), (lit "urn:epc:tag:gid-96:95100000.12345.0"), (lit "355AB1C60003039000000000"));
   (C_GID, (lit "urn:epc:id:gid:0.0.0"), (fun e => match e with E_GID x => Some (T_GID x GID_96) | _ => None end), (lit "urn:epc:tag:gid-96:0.0.0"), (lit "350000000000000000000000"));
   (C_GID, (lit "urn:epc:id:gid:268435455.16777215.68719476735"), (fun e => match e with E_GID x => Some (T_GID x GID_96) | _ => None end), (lit "urn:epc:tag:gid-96:268435455.16777215.68719476735"), (lit "35FFFFFFFFFFFFFFFFFFFFFF"));
   (C_GRAI, (lit "urn:epc:id:grai:0614141.12345.400"), (fun e => match e with E_GRAI x => Some (T_GRAI x GRAI_96 5) | _ => None end), (lit "urn:epc:tag:grai-96:5.0614141.12345.400"), (lit "33B4257BF40C0E4000000190"));
   (C_GRAI, (lit "urn:epc:id:grai:0614141.12345.4000000000000000"), (fun e => match e with E_GRAI x => Some (T_GRAI x GRAI_170 0) | _ => None end), (lit "urn:epc:tag:grai-170:0.0614141.12345.4000000000000000"), (lit "3714257BF40C0E5A3060C183060C183060C183060C00"));
   (C_GRAI, (lit "urn:epc:id:grai:061414113245..0"), (fun e => match e with E_GRAI x => Some (T_GRAI x GRAI_96 0) | _ => None end), (lit "urn:epc:tag:grai-96:0.061414113245..0"), (lit "3300393243FF740000000000"));
   (C_GRAI, (lit "urn:epc:id:grai:061414113245..01"), (fun e => match e with E_GRAI x => Some (T_GRAI x GRAI_170 0) | _ => None end), (lit "urn:epc:tag:grai-170:0.061414113245..01"), (lit "3700393243FF74183100000000000000000000000000"));
   (C_GRAI, (lit "urn:epc:id:grai:0614141.12345.ABCD1234%2F"), (fun e => match e with E_GRAI x => Some (T_GRAI x GRAI_170 0) | _ => None end), (lit "urn:epc:tag:grai-170:0.0614141.12345.ABCD1234%2F"), (lit "3714257BF40C0E60C287118B266D1780000000000000"));
   (C_GRAI, (lit "urn:epc:id:grai:061414113245..274877906943"), (fun e => match e with E_GRAI x => Some (T_GRAI x GRAI_96 0) | _ => None end), (lit "urn:epc:tag:grai-96:0.061414113245..274877906943"), (lit "3300393243FF743FFFFFFFFF"));
   (C_GRAI, (lit "urn:epc:id:grai:0614141.12345.ABCDEFGHIJKLMNOP"), (fun e => match e with E_GRAI x => Some (T_GRAI x GRAI_170 0) | _ => None end), (lit "urn:epc:tag:grai-170:0.0614141.12345.ABCDEFGHIJKLMNOP"), (lit "3714257BF40C0E60C287122C68F224CA97326CE9F400"));
   (C_GSRN, (lit "urn:epc:id:gsrn:0614141.1234567890"), (fun e => match e with E_GSRN x => Some (T_GSRN x GSRN_96 0) | _ => None end), (lit "urn:epc:tag:gsrn-96:0.0614141.1234567890"), (lit "2D14257BF4499602D2000000"));
   (C_GSRN, (lit "urn:epc:id:gsrn:012345678901.01234"), (fun e => match e with E_GSRN x => Some (T_GSRN x GSRN_96 0) | _ => None end), (lit "urn:epc:tag:gsrn-96:0.012345678901.01234"), (lit "2D000B7F7070D404D2000000"));
   (C_GSRN, (lit "urn:epc:id:gsrn:000000.00000000000"), (fun e => match e with E_GSRN x => Some (T_GSRN x GSRN_96 0) | _ => None end), (lit "urn:epc:tag:gsrn-96:0.000000.00000000000"), (lit "2D1800000000000000000000"));
   (C_GSRN, (lit "urn:epc:id:gsrn:000000000000.00000"), (fun e => match e with E_GSRN x => Some (T_GSRN x GSRN_96 5) | _ => None end), (lit "urn:epc:tag:gsrn-96:5.000000000000.00000"), (lit "2DA000000000000000000000"));
   (C_GSRN, (lit "urn:epc:id:gsrn:999999999999.99999"), (fun e => match e with E_GSRN x => Some (T_GSRN x GSRN_96 5) | _ => None end), (lit "urn:epc:tag:gsrn-96:5.999999999999.99999"), (lit "2DA3A352943FFD869F000000"));
   (C_GSRN, (lit "urn:epc:id:gsrn:999999.99999999999"), (fun e => match e with E_GSRN x => Some (T_GSRN x GSRN_96 0) | _ => None end), (lit "urn:epc:tag:gsrn-96:0.999999.99999999999"), (lit "2D1BD08FD74876E7FF000000"));
   (C_GSRNP, (lit "urn:epc:id:gsrnp:0614141.1234567890"), (fun e => match e with E_GSRNP x => Some (T_GSRNP x GSRNP_96 0) | _ => None end), (lit "urn:epc:tag:gsrnp-96:0.0614141.1234567890"), (lit "2E14257BF4499602D2000000"));
   (C_GSRNP, (lit "urn:epc:id:gsrnp:012345678901.01234"), (fun e => match e with E_GSRNP x => Some (T_GSRNP x GSRNP_96 0) | _ => None end), (lit "urn:epc:tag:gsrnp-96:0.012345678901.01234"), (lit "2E000B7F7070D404D2000000"));
   (C_GSRNP, (lit "urn:epc:id:gsrnp:000000.00000000000"), (fun e => match e with E_GSRNP x => Some (T_GSRNP x GSRNP_96 0) | _ => None end), (lit "urn:epc:tag:gsrnp-96:0.000000.00000000000"), (lit "2E1800000000000000000000"));
   (C_GSRNP, (lit "urn:epc:id:gsrnp:000000000000.00000"), (fun e => match e with E_GSRNP x => Some (T_GSRNP x GSRNP_96 5) | _ => None end), (lit "urn:epc:tag:gsrnp-96:5.000000000000.00000"), (lit "2EA000000000000000000000"));
   (C_GSRNP, (lit "urn:epc:id:gsrnp:999999999999.99999"), (fun e => match e with E_GSRNP x => Some (T_GSRNP x GSRNP_96 5) | _ => None end), (lit "urn:epc:tag:gsrnp-96:5.999999999999.99999"), (lit "2EA3A352943FFD869F000000"));
   (C_GSRNP, (lit "urn:epc:id:gsrnp:999999.99999999999"), (fun e => match e with E_GSRNP x => Some (T_GSRNP x GSRNP_96 0) | _ => None end), (lit "urn:epc:tag:gsrnp-96:0.999999.99999999999"), (lit "2E1BD08FD74876E7FF000000"));
   (C_ITIP, (lit "urn:epc:id:itip:4012345.012345.01.02.987"), (fun e => match e with E_ITIP x => Some (T_ITIP x ITIP_110 7) | _ => None end), (lit "urn:epc:tag:itip-110:7.4012345.012345.01.02.987"), (lit "40F4F4E4E40C0E40820000000F6C"));
   (C_ITIP, (lit "urn:epc:id:itip:0123456.012345.00.00.01234567890123456789"), (fun e => match e with E_ITIP x => Some (T_ITIP x ITIP_212 0) | _ => None end), (lit "urn:epc:tag:itip-212:0.0123456.012345.00.00.01234567890123456789"), (lit "41140789000C0E400060C593368D5B3770E583164CDA356CDDC39000"));
   (C_ITIP, (lit "urn:epc:id:itip:012345678901.0.00.00.01234567890123456789"), (fun e => match e with E_ITIP x => Some (T_ITIP x ITIP_212 0) | _ => None end), (lit "urn:epc:tag:itip-212:0.012345678901.0.00.00.01234567890123456789"), (lit "41000B7F7070D4000060C593368D5B3770E583164CDA356CDDC39000"));
   (C_ITIP, (lit "urn:epc:id:itip:012345678901.0.00.00.ABCDEFGHIJKLMNOP%2FRST"), (fun e => match e with E_ITIP x => Some (T_ITIP x ITIP_212 0) | _ => None end), (lit "urn:epc:tag:itip-212:0.012345678901.0.00.00.ABCDEFGHIJKLMNOP%2FRST"), (lit "41000B7F7070D40000830A1C48B1A3C8932A5CC9B3A7D05F4A9D4000"));
   (C_ITIP, (lit "urn:epc:id:itip:012345678901.0.00.00.274877906943"), (fun e => match e with E_ITIP x => Some (T_ITIP x ITIP_110 0) | _ => None end), (lit "urn:epc:tag:itip-110:0.012345678901.0.00.00.274877906943"), (lit "40000B7F7070D40000FFFFFFFFFC"));
   (C_SGCN, (lit "urn:epc:id:sgcn:4012345.67890.04711"), (fun e => match e with E_SGCN x => Some (T_SGCN x SGCN_96 0) | _ => None end), (lit "urn:epc:tag:sgcn-96:0.4012345.67890.04711"), (lit "3F14F4E4E612640000019907"));
   (C_SGCN, (lit "urn:epc:id:sgcn:4012345.67890.0"), (fun e => match e with E_SGCN x => Some (T_SGCN x SGCN_96 0) | _ => None end), (lit "urn:epc:tag:sgcn-96:0.4012345.67890.0"), (lit "3F14F4E4E61264000000000A"));
   (C_SGCN, (lit "urn:epc:id:sgcn:4012345.67890.01"), (fun e => match e with E_SGCN x => Some (T_SGCN x SGCN_96 0) | _ => None end), (lit "urn:epc:tag:sgcn-96:0.4012345.67890.01"), (lit "3F14F4E4E612640000000065"));
   (C_SGCN, (lit "urn:epc:id:sgcn:401234512345..1"), (fun e => match e with E_SGCN x => Some (T_SGCN x SGCN_96 7) | _ => None end), (lit "urn:epc:tag:sgcn-96:7.401234512345..1"), (lit "3FE175ADC32764000000000B"));
   (C_SGCN, (lit "urn:epc:id:sgcn:401231.123465.999999999999"), (fun e => match e with E_SGCN x => Some (T_SGCN x SGCN_96 7) | _ => None end), (lit "urn:epc:tag:sgcn-96:7.401231.123465.999999999999"), (lit "3FF987D3C3C493D1A94A1FFF"));
   (C_SGLN, (lit "urn:epc:id:sgln:0614141.12345.400"), (fun e => match e with E_SGLN x => Some (T_SGLN x SGLN_96 1) | _ => None end), (lit "urn:epc:tag:sgln-96:1.0614141.12345.400"), (lit "3234257BF460720000000190"));
   (C_SGLN, (lit "urn:epc:id:sgln:0614141.12345.0"), (fun e => match e with E_SGLN x => Some (T_SGLN x SGLN_195 1) | _ => None end), (lit "urn:epc:tag:sgln-195:1.0614141.12345.0"), (lit "3934257BF46072C0000000000000000000000000000000000000"));
   (C_SGLN, (lit "urn:epc:id:sgln:0614141.12345.01"), (fun e => match e with E_SGLN x => Some (T_SGLN x SGLN_195 0) | _ => None end), (lit "urn:epc:tag:sgln-195:0.0614141.12345.01"), (lit "3914257BF46072C1880000000000000000000000000000000000"));
   (C_SGLN, (lit "urn:epc:id:sgln:061411.012345.01"), (fun e => match e with E_SGLN x => Some (T_SGLN x SGLN_195 0) | _ => None end), (lit "urn:epc:tag:sgln-195:0.061411.012345.01"), (lit "39183BF8C06072C1880000000000000000000000000000000000"));
   (C_SGLN, (lit "urn:epc:id:sgln:061411123456..01"), (fun e => match e with E_SGLN x => Some (T_SGLN x SGLN_195 0) | _ => None end), (lit "urn:epc:tag:sgln-195:0.061411123456..01"), (lit "390039318D8400C1880000000000000000000000000000000000"));
   (C_SGLN, (lit "urn:epc:id:sgln:061411123456..A%2F-BCDEFGHIJKLMNOPQR"), (fun e => match e with E_SGLN x => Some (T_SGLN x SGLN_195 0) | _ => None end), (lit "urn:epc:tag:sgln-195:0.061411123456..A%2F-BCDEFGHIJKLMNOPQR"), (lit "390039318D8401057AD850E2458D1E449952E64D9D3E851A4000"));
   (C_SGLN, (lit "urn:epc:id:sgln:061411123456..2199023255551"), (fun e => match e with E_SGLN x => Some (T_SGLN x SGLN_96 0) | _ => None end), (lit "urn:epc:tag:sgln-96:0.061411123456..2199023255551"), (lit "320039318D8401FFFFFFFFFF"));
   (C_SGLN, (lit "urn:epc:id:sgln:061411123456..2199023255552"), (fun e => match e with E_SGLN x => Some (T_SGLN x SGLN_195 0) | _ => None end), (lit "urn:epc:tag:sgln-195:0.061411123456..2199023255552"), (lit "390039318D8400C98B972C193364D5AB56AC8000000000000000"));
   (C_SGTIN, (lit "urn:epc:id:sgtin:50712192365.88..%25:.13%26"), (fun e => match e with E_SGTIN x => Some (T_SGTIN x SGTIN_198 1) | _ => None end), (lit "urn:epc:tag:sgtin-198:1.50712192365.88..%25:.13%26"), (lit "362579D5D4ADB6172574B98B34C0000000000000000000000000"));
   (C_SGTIN, (lit "urn:epc:id:sgtin:50712192365.88..%25:.13%26"), (fun e => match e with E_SGTIN x => Some (T_SGTIN x SGTIN_198 5) | _ => None end), (lit "urn:epc:tag:sgtin-198:5.50712192365.88..%25:.13%26"), (lit "36A579D5D4ADB6172574B98B34C0000000000000000000000000"));
   (C_SGTIN, (lit "urn:epc:id:sgtin:50712192365.88.0"), (fun e => match e with E_SGTIN x => Some (T_SGTIN x SGTIN_96 6) | _ => None end), (lit "urn:epc:tag:sgtin-96:6.50712192365.88.0"), (lit "30C579D5D4ADB60000000000"));
   (C_SGTIN, (lit "urn:epc:id:sgtin:50712192365.88.0"), (fun e => match e with E_SGTIN x => Some (T_SGTIN x SGTIN_198 6) | _ => None end), (lit "urn:epc:tag:sgtin-198:6.50712192365.88.0"), (lit "36C579D5D4ADB618000000000000000000000000000000000000"));
   (C_SSCC, (lit "urn:epc:id:sscc:0614141.1234567890"), (fun e => match e with E_SSCC x => Some (T_SSCC x SSCC_96 2) | _ => None end), (lit "urn:epc:tag:sscc-96:2.0614141.1234567890"), (lit "3154257BF4499602D2000000"));
   (C_SSCC, (lit "urn:epc:id:sscc:061414.12345678901"), (fun e => match e with E_SSCC x => Some (T_SSCC x SSCC_96 2) | _ => None end), (lit "urn:epc:tag:sscc-96:2.061414.12345678901"), (lit "31583BF982DFDC1C35000000"));
   (C_SSCC, (lit "urn:epc:id:sscc:061414123456.12345"), (fun e => match e with E_SSCC x => Some (T_SSCC x SSCC_96 0) | _ => None end), (lit "urn:epc:tag:sscc-96:0.061414123456.12345"), (lit "31003932449F003039000000"));
   (C_SSCC, (lit "urn:epc:id:sscc:061414123456.00000"), (fun e => match e with E_SSCC x => Some (T_SSCC x SSCC_96 5) | _ => None end), (lit "urn:epc:tag:sscc-96:5.061414123456.00000"), (lit "31A03932449F000000000000"));
   (C_USDOD, (lit "urn:epc:id:usdod:2S194.12345678901"), (fun e => match e with E_USDOD x => Some (T_USDOD x USDOD_96 0) | _ => None end), (lit "urn:epc:tag:usdod-96:0.2S194.12345678901"), (lit "2F02032533139342DFDC1C35"));
   (C_USDOD, (lit "urn:epc:id:usdod:2S194.0"), (fun e => match e with E_USDOD x => Some (T_USDOD x USDOD_96 1) | _ => None end), (lit "urn:epc:tag:usdod-96:1.2S194.0"), (lit "2F1203253313934000000000"));
   (C_USDOD, (lit "urn:epc:id:usdod:2S1941.0"), (fun e => match e with E_USDOD x => Some (T_USDOD x USDOD_96 2) | _ => None end), (lit "urn:epc:tag:usdod-96:2.2S1941.0"), (lit "2F2325331393431000000000"));
   (C_USDOD, (lit "urn:epc:id:usdod:2S194.68719476735"), (fun e => match e with E_USDOD x => Some (T_USDOD x USDOD_96 15) | _ => None end), (lit "urn:epc:tag:usdod-96:15.2S194.68719476735"), (lit "2FF203253313934FFFFFFFFF"))].
Definition tag_invalid : list (cls * str * (epc -> option tagreq)) :=
  [(C_CPI, (lit "urn:epc:id:cpi:0614141.12-456.123456789"), (fun e => match e with E_CPI x => Some (T_CPI x CPI_96 0) | _ => None end));
   (C_CPI, (lit "urn:epc:id:cpi:0614141.1234567890.0"), (fun e => match e with E_CPI x => Some (T_CPI x CPI_96 1) | _ => None end));
   (C_CPI, (lit "urn:epc:id:cpi:0614141.123467890.100000000000"), (fun e => match e with E_CPI x => Some (T_CPI x CPI_96 5) | _ => None end));
   (C_GDTI, (lit "urn:epc:id:gdti:0614141.12345.ABCD1234%2F"), (fun e => match e with E_GDTI x => Some (T_GDTI x GDTI_96 0) | _ => None end));
   (C_GDTI, (lit "urn:epc:id:gdti:0614141.12345.2199023255552"), (fun e => match e with E_GDTI x => Some (T_GDTI x GDTI_96 2) | _ => None end));
   (C_GDTI, (lit "urn:epc:id:gdti:0614141.12345.01"), (fun e => match e with E_GDTI x => Some (T_GDTI x GDTI_96 2) | _ => None end));
   (C_GIAI, (lit "urn:epc:id:giai:0614141.02"), (fun e => match e with E_GIAI x => Some (T_GIAI x GIAI_96 1) | _ => None end));
   (C_GIAI, (lit "urn:epc:id:giai:061411.11ABc%2FD"), (fun e => match e with E_GIAI x => Some (T_GIAI x GIAI_96 4) | _ => None end));
   (C_GRAI, (lit "urn:epc:id:grai:0614141.12345.4000000000000000"), (fun e => match e with E_GRAI x => Some (T_GRAI x GRAI_96 0) | _ => None end));
   (C_GRAI, (lit "urn:epc:id:grai:061414113245..01"), (fun e => match e with E_GRAI x => Some (T_GRAI x GRAI_96 0) | _ => None end));
   (C_GRAI, (lit "urn:epc:id:grai:0614141.12345.ABCD1234%2F"), (fun e => match e with E_GRAI x => Some (T_GRAI x GRAI_96 0) | _ => None end));
   (C_GRAI, (lit "urn:epc:id:grai:061414113245..274877906944"), (fun e => match e with E_GRAI x => Some (T_GRAI x GRAI_96 0) | _ => None end));
   (C_ITIP, (lit "urn:epc:id:itip:0123456.012345.00.00.01234567890123456789"), (fun e => match e with E_ITIP x => Some (T_ITIP x ITIP_110 0) | _ => None end));
   (C_ITIP, (lit "urn:epc:id:itip:012345678901.0.00.00.ABCDEFGHIJKLMNOP%2FRST"), (fun e => match e with E_ITIP x => Some (T_ITIP x ITIP_110 0) | _ => None end));
   (C_ITIP, (lit "urn:epc:id:itip:012345678901.0.00.00.274877906944"), (fun e => match e with E_ITIP x => Some (T_ITIP x ITIP_110 0) | _ => None end));
   (C_SGLN, (lit "urn:epc:id:sgln:0614141.12345.01"), (fun e => match e with E_SGLN x => Some (T_SGLN x SGLN_96 0) | _ => None end));
   (C_SGLN, (lit "urn:epc:id:sgln:061411123456..A%2F-BCDEFGHIJKLMNOPQR"), (fun e => match e with E_SGLN x => Some (T_SGLN x SGLN_96 0) | _ => None end));
   (C_SGLN, (lit "urn:epc:id:sgln:061411123456..2199023255552"), (fun e => match e with E_SGLN x => Some (T_SGLN x SGLN_96 0) | _ => None end));
   (C_SGTIN, (lit "urn:epc:id:sgtin:50712192365.88..%25:.13%26"), (fun e => match e with E_SGTIN x => Some (T_SGTIN x SGTIN_96 1) | _ => None end));
   (C_SGTIN, (lit "urn:epc:id:sgtin:50712192365.88.0123"), (fun e => match e with E_SGTIN x => Some (T_SGTIN x SGTIN_96 1) | _ => None end));
   (C_SGTIN, (lit "urn:epc:id:sgtin:50712192365.88.1123456789012"), (fun e => match e with E_SGTIN x => Some (T_SGTIN x SGTIN_96 1) | _ => None end))].
Example tag_valid_ok : forallb (fun '(c, u, r, t, h) =>
    match init_of c u with
    | Ok e => match r e with
              | Some q => ok_str (req_tag_uri q) t && ok_str (req_hex q) h &&
                          ok_uri (from_tag_uri_of c t) u &&
                          ok_uri (from_hex (from_binary_of c) h) u &&
                          ok_uri (let* b := hex_to_base64 h in from_base64 (from_binary_of c) b) u
              | None => false end
    | _ => false end) tag_valid = true.
Proof. vm_compute. reflexivity. Qed.
Example tag_invalid_ok : forallb (fun '(c, u, r) =>
    match init_of c u with
    | Ok e => match r e with Some q => is_convert (req_tag_uri q) | None => false end
    | _ => false end) tag_invalid = true.
Proof. vm_compute. reflexivity. Qed.

(** tests/utils/test_parsers.py on tests/utils/test_data.py (23 + 14 + 14 entries) *)
Definition parser_valid : list (cls * str * option gtin_type * option str * option str * option Z * option str * option str * option str) :=
  [(C_ADI, (lit "urn:epc:id:adi:W81X9C.3KL984PX1.2WMA-52"), None, None, None, None, (Some (lit "urn:epc:tag:adi-var:5.W81X9C.3KL984PX1.2WMA-52")), (Some (lit "3B157E316390F32CCE78D106310325CD06DD7200")), (Some (lit "0011101100010101011111100011000101100011100100001111001100101100110011100111100011010001000001100011000100000011001001011100110100000110110111010111001000000000")));
   (C_BIC, (lit "urn:epc:id:bic:CSQJ3054381"), None, None, None, None, None, None, None);
   (C_CPI, (lit "urn:epc:id:cpi:0614141.12-456.123456789"), None, None, (Some (lit "(8010)061414112-456(8011)123456789")), None, (Some (lit "urn:epc:tag:cpi-var:0.0614141.12-456.123456789")), (Some (lit "3D14257BF71CADD35D8000075BCD1500")), (Some (lit "00111101000101000010010101111011111101110001110010101101110100110101110110000000000000000000011101011011110011010001010100000000")));
   (C_GDTI, (lit "urn:epc:id:gdti:0614141.12345.ABCD1234%2F"), None, (Some (lit "0614141123452ABCD1234/")), (Some (lit "(253)0614141123452ABCD1234/")), (Some 7%Z), (Some (lit "urn:epc:tag:gdti-174:0.0614141.12345.ABCD1234%2F")), (Some (lit "3E14257BF460730614388C593368BC00000000000000")), (Some (lit "00111110000101000010010101111011111101000110000001110011000001100001010000111000100011000101100100110011011010001011110000000000000000000000000000000000000000000000000000000000")));
   (C_GIAI, (lit "urn:epc:id:giai:0614141.1ABc%2FD"), None, (Some (lit "06141411ABc/D")), (Some (lit "(8004)06141411ABc/D")), (Some 7%Z), (Some (lit "urn:epc:tag:giai-202:0.0614141.1ABc%2FD")), (Some (lit "3814257BF58C1858D7C400000000000000000000000000000000")), (Some (lit "0011100000010100001001010111101111110101100011000001100001011000110101111100010000000000000000000000000000000000000000000000000000000000000000000000000000000000000000000000000000000000000000000000000000000000")));
   (C_GID, (lit "urn:epc:id:gid:268435455.16777215.68719476735"), None, None, None, None, (Some (lit "urn:epc:tag:gid-96:268435455.16777215.68719476735")), (Some (lit "35FFFFFFFFFFFFFFFFFFFFFF")), (Some (lit "001101011111111111111111111111111111111111111111111111111111111111111111111111111111111111111111")));
   (C_GINC, (lit "urn:epc:id:ginc:061411.01ABc%2FD"), None, (Some (lit "06141101ABc/D")), (Some (lit "(401)06141101ABc/D")), (Some 6%Z), None, None, None);
   (C_GRAI, (lit "urn:epc:id:grai:0614141.12345.ABCD1234%2F"), None, (Some (lit "0614141123452ABCD1234/")), (Some (lit "(8003)00614141123452ABCD1234/")), (Some 7%Z), (Some (lit "urn:epc:tag:grai-170:0.0614141.12345.ABCD1234%2F")), (Some (lit "3714257BF40C0E60C287118B266D1780000000000000")), (Some (lit "00110111000101000010010101111011111101000000110000001110011000001100001010000111000100011000101100100110011011010001011110000000000000000000000000000000000000000000000000000000")));
   (C_GSIN, (lit "urn:epc:id:gsin:061414.0123456789"), None, (Some (lit "06141401234567891")), (Some (lit "(402)06141401234567891")), (Some 6%Z), None, None, None);
   (C_GSRN, (lit "urn:epc:id:gsrn:012345678901.01234"), None, (Some (lit "012345678901012342")), (Some (lit "(8018)012345678901012342")), (Some 12%Z), (Some (lit "urn:epc:tag:gsrn-96:0.012345678901.01234")), (Some (lit "2D000B7F7070D404D2000000")), (Some (lit "001011010000000000001011011111110111000001110000110101000000010011010010000000000000000000000000")));
   (C_GSRNP, (lit "urn:epc:id:gsrnp:012345678901.01234"), None, (Some (lit "012345678901012342")), (Some (lit "(8017)012345678901012342")), (Some 12%Z), (Some (lit "urn:epc:tag:gsrnp-96:0.012345678901.01234")), (Some (lit "2E000B7F7070D404D2000000")), (Some (lit "001011100000000000001011011111110111000001110000110101000000010011010010000000000000000000000000")));
   (C_IMOVN, (lit "urn:epc:id:imovn:9176187"), None, None, None, None, None, None, None);
   (C_ITIP, (lit "urn:epc:id:itip:012345678901.0.00.00.ABCDEFGHIJKLMNOP%2FRST"), None, None, (Some (lit "(8006)001234567890120000(21)ABCDEFGHIJKLMNOP/RST")), None, (Some (lit "urn:epc:tag:itip-212:0.012345678901.0.00.00.ABCDEFGHIJKLMNOP%2FRST")), (Some (lit "41000B7F7070D40000830A1C48B1A3C8932A5CC9B3A7D05F4A9D4000")), (Some (lit "01000001000000000000101101111111011100000111000011010100000000000000000010000011000010100001110001001000101100011010001111001000100100110010101001011100110010011011001110100111110100000101111101001010100111010100000000000000")));
   (C_LGTIN, (lit "urn:epc:class:lgtin:50712192365.88..%25:.13%26"), None, (Some (lit "85071219236581")), (Some (lit "(01)85071219236581(10).%:.13&")), (Some 11%Z), None, None, None);
   (C_PGLN, (lit "urn:epc:id:pgln:0123456789.01"), None, (Some (lit "0123456789012")), (Some (lit "(417)0123456789012")), (Some 10%Z), None, None, None);
   (C_SGCN, (lit "urn:epc:id:sgcn:401234512345..1"), None, (Some (lit "40123451234561")), (Some (lit "(255)40123451234561")), (Some 12%Z), (Some (lit "urn:epc:tag:sgcn-96:7.401234512345..1")), (Some (lit "3FE175ADC32764000000000B")), (Some (lit "001111111110000101110101101011011100001100100111011001000000000000000000000000000000000000001011")));
   (C_SGLN, (lit "urn:epc:id:sgln:061411123456..A%2F-BCDEFGHIJKLMNOPQR"), None, (Some (lit "0614111234560")), (Some (lit "(414)0614111234560(254)A/-BCDEFGHIJKLMNOPQR")), (Some 12%Z), (Some (lit "urn:epc:tag:sgln-195:0.061411123456..A%2F-BCDEFGHIJKLMNOPQR")), (Some (lit "390039318D8401057AD850E2458D1E449952E64D9D3E851A4000")), (Some (lit "0011100100000000001110010011000110001101100001000000000100000101011110101101100001010000111000100100010110001101000111100100010010011001010100101110011001001101100111010011111010000101000110100100000000000000")));
   (C_SGTIN, (lit "urn:epc:id:sgtin:00000950.01093.Serial"), None, (Some (lit "00000095010939")), (Some (lit "(01)00000095010939(21)Serial")), (Some 8%Z), (Some (lit "urn:epc:tag:sgtin-198:2.00000950.01093.Serial")), (Some (lit "36500001DB011169E5E5A70EC000000000000000000000000000")), (Some (lit "0011011001010000000000000000000111011011000000010001000101101001111001011110010110100111000011101100000000000000000000000000000000000000000000000000000000000000000000000000000000000000000000000000000000000000")));
   (C_SGTIN, (lit "urn:epc:id:sgtin:00000950.01093.Serial"), (Some GTIN13), (Some (lit "0000095010939")), (Some (lit "(01)00000095010939(21)Serial")), (Some 8%Z), (Some (lit "urn:epc:tag:sgtin-198:2.00000950.01093.Serial")), (Some (lit "36500001DB011169E5E5A70EC000000000000000000000000000")), (Some (lit "0011011001010000000000000000000111011011000000010001000101101001111001011110010110100111000011101100000000000000000000000000000000000000000000000000000000000000000000000000000000000000000000000000000000000000")));
   (C_SGTIN, (lit "urn:epc:id:sgtin:00000950.01093.Serial"), (Some GTIN8), (Some (lit "95010939")), (Some (lit "(01)00000095010939(21)Serial")), (Some 8%Z), (Some (lit "urn:epc:tag:sgtin-198:2.00000950.01093.Serial")), (Some (lit "36500001DB011169E5E5A70EC000000000000000000000000000")), (Some (lit "0011011001010000000000000000000111011011000000010001000101101001111001011110010110100111000011101100000000000000000000000000000000000000000000000000000000000000000000000000000000000000000000000000000000000000")));
   (C_SSCC, (lit "urn:epc:id:sscc:061414123456.12345"), None, (Some (lit "106141412345623458")), (Some (lit "(00)106141412345623458")), (Some 12%Z), (Some (lit "urn:epc:tag:sscc-96:0.061414123456.12345")), (Some (lit "31003932449F003039000000")), (Some (lit "001100010000000000111001001100100100010010011111000000000011000000111001000000000000000000000000")));
   (C_UPUI, (lit "urn:epc:id:upui:1234567.089456.51qIgY)%3C%26Jp3*j7'SDB"), None, None, (Some (lit "(01)01234567894560(235)51qIgY)<&Jp3*j7'SDB")), None, None, None, None);
   (C_USDOD, (lit "urn:epc:id:usdod:2S194.68719476735"), None, None, None, None, (Some (lit "urn:epc:tag:usdod-96:15.2S194.68719476735")), (Some (lit "2FF203253313934FFFFFFFFF")), (Some (lit "001011111111001000000011001001010011001100010011100100110100111111111111111111111111111111111111")))].
Definition same (r : res epc) (c : cls) (u : str) : bool :=
  match r, init_of c u with Ok a, Ok b => epc_eqb a b | _, _ => false end.
Example parser_valid_ok : forallb (fun '(c, u, t, k, g, l, tu, h, b) =>
    same (epc_pure_identity_to_scheme u) c u &&
    oall g (fun g => same (epc_pure_identity_to_gs1_element u) c u &&
                     ok_str (epc_pure_identity_to_gs1_element_string u) g) &&
    oall k (fun k => same (epc_pure_identity_to_gs1_keyed u) c u &&
                     ok_str (epc_pure_identity_to_gs1_key u t) k && ok_str (get_gs1_key u None t) k &&
                     oall g (fun g => ok_str (get_gs1_key g l t) k) &&
                     oall tu (fun x => ok_str (get_gs1_key x None t) k) &&
                     oall h (fun x => ok_str (get_gs1_key x None t) k) &&
                     oall b (fun x => ok_str (get_gs1_key x None t) k)) &&
    oall tu (fun tu => same (epc_pure_identity_to_tag_encodable u) c u &&
                       same (tag_uri_to_tag_encodable tu) c u) &&
    oall h (fun h => same (hex_to_tag_encodable h) c u) &&
    oall b (fun b => same (binary_to_tag_encodable b) c u)) parser_valid = true.
Proof. vm_compute. reflexivity. Qed.

Definition idpat_valid : list (str * option gtin_type * str) :=
  [((lit "urn:epc:idpat:gdti:0614141.12345.*"), None, (lit "0614141123452*"));
   ((lit "urn:epc:idpat:giai:0614141.*"), None, (lit "0614141*"));
   ((lit "urn:epc:idpat:ginc:061411.*"), None, (lit "061411*"));
   ((lit "urn:epc:idpat:grai:0614141.12345.*"), None, (lit "0614141123452*"));
   ((lit "urn:epc:idpat:gsin:061414.0123456789"), None, (lit "06141401234567891"));
   ((lit "urn:epc:idpat:gsrn:012345678901.01234"), None, (lit "012345678901012342"));
   ((lit "urn:epc:idpat:gsrnp:012345678901.01234"), None, (lit "012345678901012342"));
   ((lit "urn:epc:idpat:pgln:0123456789.01"), None, (lit "0123456789012"));
   ((lit "urn:epc:idpat:sgcn:401234512345..1"), None, (lit "40123451234561"));
   ((lit "urn:epc:idpat:sgln:061411123456..*"), None, (lit "0614111234560"));
   ((lit "urn:epc:idpat:sgtin:00000950.01093.*"), None, (lit "00000095010939"));
   ((lit "urn:epc:idpat:sgtin:00000950.01093.*"), (Some GTIN13), (lit "0000095010939"));
   ((lit "urn:epc:idpat:sgtin:00000950.01093.*"), (Some GTIN8), (lit "95010939"));
   ((lit "urn:epc:idpat:sscc:061414123456.12345"), None, (lit "106141412345623458"))].
Definition idpat_invalid : list (str * option gtin_type) :=
  [((lit "urn:epc:idpat:gdti:0614141.*.*"), None);
   ((lit "urn:epc:idpat:giai:*.*"), None);
   ((lit "urn:epc:idpat:ginc:*.*"), None);
   ((lit "urn:epc:idpat:grai:0614141.*.*"), None);
   ((lit "urn:epc:idpat:gsin:061414.*"), None);
   ((lit "urn:epc:idpat:gsrn:012345678901.*"), None);
   ((lit "urn:epc:idpat:gsrnp:012345678901.*"), None);
   ((lit "urn:epc:idpat:pgln:0123456789.*"), None);
   ((lit "urn:epc:idpat:sgcn:401234512345..*"), None);
   ((lit "urn:epc:idpat:sgln:061411123456.*.*"), None);
   ((lit "urn:epc:idpat:sgtin:00000950.*.*"), None);
   ((lit "urn:epc:idpat:sgtin:00000950.*.*"), None);
   ((lit "urn:epc:idpat:sgtin:00000950.*.*"), None);
   ((lit "urn:epc:idpat:sscc:061414123456.*"), None)].
Example idpat_valid_ok : forallb (fun '(p, t, k) => ok_str (get_gs1_key p None t) k) idpat_valid = true.
Proof. vm_compute. reflexivity. Qed.
Example idpat_invalid_ok : forallb (fun '(p, t) => is_convert (get_gs1_key p None t)) idpat_invalid = true.
Proof. vm_compute. reflexivity. Qed.

(** TestParsersInvalid *)
Example parser_invalid_ok :
  is_convert (epc_pure_identity_to_gs1_element (lit "urn:epc:id:adi:W81X9C.3KL984PX1.2WMA-52")) &&
  is_convert (epc_pure_identity_to_gs1_element_string (lit "urn:epc:id:bic:CSQJ3054381")) &&
  is_convert (epc_pure_identity_to_gs1_key (lit "urn:epc:id:itip:012345678901.0.00.00.ABCDEFGHIJKLMNOP%2FRST") None) &&
  is_convert (epc_pure_identity_to_gs1_keyed (lit "urn:epc:id:upui:1234567.089456.51qIgY)%3C%26Jp3*j7'SDB")) &&
  is_convert (epc_pure_identity_to_scheme (lit "urn:epc:id:dod:2S194.68719476735")) &&
  is_convert (epc_pure_identity_to_tag_encodable (lit "urn:epc:id:pgln:0123456789.01")) &&
  is_convert (hex_to_tag_encodable (lit "3AFFFFFFFFFFFFFFFFFFFFFF")) &&
  is_convert (tag_uri_to_tag_encodable (lit "urn:epc:tag:imovn-96:0.9176187")) = true.
Proof. vm_compute. reflexivity. Qed.

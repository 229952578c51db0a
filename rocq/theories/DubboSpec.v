(** Dubbo packets: a header of sixteen bytes (magic, flags, status, request id, body length) and a body. *)
From Verif Require Import Base.
Open Scope string_scope. Open Scope list_scope. Open Scope Z_scope.

Definition dubboFlag (request twoway event : bool) (serial : Z) : Z :=
  (if request then 128 else 0) + (if twoway then 64 else 0) + (if event then 32 else 0) + serial.
(** [idlen] is the request id (8 bytes) and the length (4 bytes) *)
Definition dubboPacket (flag status : Z) (idlen body : bytes) : bytes := [218; 187; flag; status] ++ idlen ++ body.
(** Hessian 2 strings of fewer than 1024 characters, all of them ASCII *)
Definition hessian (s : bytes) : bytes := if zlen s <? 32 then zlen s :: s else (48 + zlen s / 256) :: (zlen s mod 256) :: s.
(** a JSON value on its own line *)
Definition jsonLine (v : bytes) : bytes := v ++ [10].
Definition quoted (s : bytes) : bytes := [34] ++ s ++ [34].
Definition HESSIAN2 := 2.
Definition FASTJSON := 6.
(** the body of a call: protocol version, service, service version, method, then types and arguments *)
Definition call (enc : bytes -> bytes) (version service serviceVersion method rest : bytes) : bytes :=
  enc version ++ enc service ++ enc serviceVersion ++ enc method ++ rest.

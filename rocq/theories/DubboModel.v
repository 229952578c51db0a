(** Model of the Dubbo parser (collector/pkg/component/analyzer/network/protocol/dubbo).
    getStringValueByKey and getStrValue of dubbo_serialize.go have no caller and are not modelled. *)
From Verif Require Import Base AttrModel LabelNames MsgModel.
Open Scope string_scope. Open Scope list_scope. Open Scope Z_scope.

(** dubbo_serialize.go:39-55 dubboHessian.eatString *)
Definition eatHessian (d : bytes) (off : Z) : res Z :=
  if zlen d <=? off then Ok (zlen d)
  else bind (gindex d off) (fun tag =>
    if (48 <=? tag) && (tag <=? 51)
    then if off + 1 =? zlen d then Ok (zlen d)
         else bind (gindex d (off + 1)) (fun b => Ok (off + 2 + Z.shiftl (tag - 48) 8 + b))
    else Ok (off + 1 + tag)).
(** dubbo_serialize.go:77-80: the end of dubboHessian.getStringValue *)
Definition hessianText (d : bytes) (off len : Z) : res (bytes * Z) :=
  if zlen d <=? off + len then bind (gslice d off (zlen d)) (fun v => Ok (v, zlen d))
  else bind (gslice d off (off + len)) (fun v => Ok (v, off + len)).
(** dubbo_serialize.go:57-81 dubboHessian.getStringValue *)
Definition getHessian (d : bytes) (off : Z) : res (bytes * Z) :=
  if zlen d <=? off then Ok ([], zlen d)
  else bind (gindex d off) (fun tag =>
    if (48 <=? tag) && (tag <=? 51)
    then if off + 1 =? zlen d then Ok ([], zlen d)
         else bind (gindex d (off + 1)) (fun b => hessianText d (off + 2) (Z.shiftl (tag - 48) 8 + b))
    else hessianText d (off + 1) tag).
(** dubbo_serialize.go:113-130 dubboFastJson.eatString *)
Definition eatJson (d : bytes) (off : Z) : res Z :=
  if zlen d <=? off then Ok (zlen d)
  else bind (scan (Z.to_nat (zlen d - (off + 1))) d (off + 1) 10) (fun r =>
    match r with Some i => Ok (i + 1) | None => Ok (zlen d) end).
(** dubbo_serialize.go:132-149 dubboFastJson.getStringValue *)
Definition getJson (d : bytes) (off : Z) : res (bytes * Z) :=
  if zlen d <=? off then Ok ([], zlen d)
  else bind (scan (Z.to_nat (zlen d - (off + 1))) d (off + 1) 10) (fun r =>
    match r with
    | Some i => bind (gslice d (off + 1) (i - 1)) (fun v => Ok (v, i + 1))
    | None => Ok ([], zlen d)
    end).
(** dubbo_request.go:49-65: the four strings, with the reader of the serialization *)
Definition dubboStrings (eat : bytes -> Z -> res Z) (get : bytes -> Z -> res (bytes * Z)) (d : bytes) : res bytes :=
  bind (eat d 16) (fun o1 => bind (get d o1) (fun '(service, o2) =>
    bind (eat d o2) (fun o3 => bind (get d o3) (fun '(method, _) => Ok (service ++ bs "#" ++ method))))).
(** dubbo_request.go:26-66 getContentKey; dubbo_parser.go:12-19 the flag bits; dubbo_serialize.go:26-35 GetSerializer *)
Definition getContentKey (d : bytes) : res bytes :=
  bind (gindex d 2) (fun f =>
    let serialID := Z.land f 31 in
    if serialID =? 0 then Ok []
    else if negb (Z.land f 32 =? 0) then Ok (bs "Heartbeat")
    else if Z.land f 128 =? 0 then Ok []
    else if Z.land f 64 =? 0 then Ok (bs "Oneway")
    else if serialID =? 2 then dubboStrings eatHessian getHessian d
    else if serialID =? 6 then dubboStrings eatJson getJson d
    else Ok (bs "UnSupportSerialFormat")).
(** dubbo_request.go:8-12 and dubbo_response.go:8-12 fastfail *)
Definition fastfailDubbo (m : msg) : res (bool * msg) :=
  if zlen (m_data m) <? 16 then Ok (true, m)
  else bind (gindex (m_data m) 0) (fun a =>
         if negb (a =? 218) then Ok (true, m)
         else bind (gindex (m_data m) 1) (fun b => Ok (negb (b =? 187), m))).
(** dubbo_request.go:14-24 parseDubboRequest *)
Definition parseDubboRequest (m : msg) : res ((bool * bool) * msg) :=
  bind (getContentKey (m_data m)) (fun k =>
    if zlen k =? 0 then Ok ((false, true), m) else Ok ((true, true), addAttr m LContentKey (SV k))).
(** dubbo_response.go:30-44 getErrorCode *)
Definition getErrorCode (d : bytes) : res Z :=
  bind (gindex d 2) (fun f =>
    if Z.land f 31 =? 0 then Ok (-1)
    else if negb (Z.land f 32 =? 0) then Ok 20
    else if negb (Z.land f 128 =? 0) then Ok (-1)
    else gindex d 3).
(** dubbo_response.go:14-28 parseDubboResponse *)
Definition parseDubboResponse (m : msg) : res ((bool * bool) * msg) :=
  bind (getErrorCode (m_data m)) (fun c =>
    if c =? -1 then Ok ((false, true), m)
    else let m1 := addAttr m LDubboErrorCode (IV c) in
         Ok ((true, true), if 20 <? c then addAttr (addAttr m1 LIsError (BV true)) LErrorType (IV ProtocolError) else m1)).
(** dubbo_parser.go:21-26 NewDubboParser (single frame); protocol_parser.go:415-421 *)
Definition dubboRequestParser : pkg := Pkg fastfailDubbo parseDubboRequest [].
Definition dubboResponseParser : pkg := Pkg fastfailDubbo parseDubboResponse [].
Definition dubboRequest (d : bytes) : res (bool * msg) := parsePayload false dubboRequestParser (newRequest d).
Definition dubboResponse (d : bytes) (attrs : list (string * aval)) : res (bool * msg) := parsePayload false dubboResponseParser (newResponse d attrs).

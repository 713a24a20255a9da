(** What the libmbus XML of a frame should say, written without reference to the code that
    writes it.  Documents are read by Spec/XmlSpec.v. *)
From Coq Require Import List NArith ZArith QArith String.
Import ListNotations.
From Verif Require Import Model.Base Model.Text Model.Core Model.F64 Model.DataInfo Model.ValueInfo Model.Record Model.UserData
  Model.Show Model.Output Model.Rscada
  Spec.TextSpec Spec.CoreSpec Spec.RecordSpec Spec.AppSpec Spec.VifSpec Spec.XmlSpec Spec.ProductSpec.
Open Scope N_scope.

(** the number in decimal digits, without leading zeros *)
Definition written (t : text) (n : N) : Prop := integer_text t (Z.of_N n).

(** [listed_xml powi index rs es]: [es] are the elements of the records [rs] one by one, numbered
    from [index] *)
Inductive listed_xml (powi : Z -> f64) : N -> list data_record -> list (text * list (text * text)) -> Prop :=
| ListedXmlEnd index : listed_xml powi index [] []
| ListedXmlNext index r rs id fields es :
    written id index -> record_element (render_variable_record powi index r) = Some (id, fields) ->
    listed_xml powi (index + 1) rs es -> listed_xml powi index (r :: rs) ((id, fields) :: es).

(** [shown_xml cf powi block slave res]: [res] is a document with this slave information and an
    element for each record of [block], up to the first that cannot be read; or a panic, when
    reading the records panics *)
Inductive shown_xml (cf : config) (powi : Z -> f64) (block : list N) (slave : list (text * text))
  : outcome xml_error text -> Prop :=
| ShownXml rs last out es :
    records_all cf block None = Some (map Ok rs ++ last) -> (last = [] \/ exists e, last = [Err e]) ->
    document out = Some (slave, es) -> listed_xml powi 0 rs es -> shown_xml cf powi block slave (Ok out)
| ShownXmlPanic rs p :
    records_all cf block None = Some (map Ok rs ++ [Panic p]) -> shown_xml cf powi block slave (Panic p).

(** the three letters of a manufacturer id, or nothing *)
Definition manufacturer_text (m : N) (t : text) : Prop :=
  (exists a b c, capital a /\ capital b /\ capital c /\ m = flag_id a b c /\ t = [a; b; c]) \/
  ((forall a b c, capital a -> capital b -> capital c -> m <> flag_id a b c) /\ t = []).

(** the names of the media of libmbus *)
Definition media : list (N * text) :=
  [ (0x00, txt "Other"); (0x01, txt "Oil"); (0x02, txt "Electricity");
    (0x03, txt "Gas"); (0x04, txt "Heat: Outlet"); (0x05, txt "Steam");
    (0x06, txt "Warm water (30-90" ++ [0xB0] ++ txt "C)"); (0x07, txt "Water"); (0x08, txt "Heat Cost Allocator");
    (0x09, txt "Compressed Air"); (0x0A, txt "Cooling load meter: Outlet"); (0x0B, txt "Cooling load meter: Inlet");
    (0x0C, txt "Heat: Inlet"); (0x0D, txt "Heat / Cooling load meter"); (0x0E, txt "Bus/System");
    (0x0F, txt "Unknown Medium"); (0x10, txt "Irrigation Water"); (0x11, txt "Water Logger");
    (0x12, txt "Gas Logger"); (0x13, txt "Gas Converter"); (0x14, txt "Calorific value");
    (0x15, txt "Hot water (>90" ++ [0xB0] ++ txt "C)"); (0x16, txt "Cold water"); (0x17, txt "Dual water");
    (0x18, txt "Pressure"); (0x19, txt "A/D Converter"); (0x1A, txt "Smoke Detector");
    (0x1B, txt "Ambient Sensor"); (0x1C, txt "Gas Detector"); (0x20, txt "Breaker: Electricity");
    (0x21, txt "Valve: Gas or Water"); (0x25, txt "Customer Unit: Display Device"); (0x28, txt "Waste Water");
    (0x29, txt "Garbage"); (0x30, txt "Service Unit"); (0x36, txt "Radio Converter: System");
    (0x37, txt "Radio Converter: Meter") ].

(** [meter_fields number m v d fields]: the first fields of the slave information name the meter
    with the packed number [number], the manufacturer id [m], the version [v] and the device
    type byte [d] *)
Definition meter_fields (number : list N) (m v d : N) (fields : list (text * text)) : Prop :=
  exists n id maker version product medium,
    bcd_number number n /\ written id n /\ manufacturer_text m maker /\ written version v /\
    product_text maker v d n product /\ (forall name, In (d, name) media -> medium = name) /\
    fields = [ (txt "Id", id); (txt "Manufacturer", maker); (txt "Version", version); (txt "ProductName", product);
               (txt "Medium", medium) ].

(** [header_fields acc st config fields]: the others, each if it is known *)
Definition header_fields (acc st : option N) (config : option (N * N)) (fields : list (text * text)) : Prop :=
  exists f1 f2 f3, fields = f1 ++ f2 ++ f3 /\
    match acc with Some acc => exists t, written t acc /\ f1 = [(txt "AccessNumber", t)] | None => f1 = [] end /\
    match st with Some st => exists t, compact t [st] /\ f2 = [(txt "Status", t)] | None => f2 = [] end /\
    match config with Some (c0, c1) => exists t, compact t [c1; c0] /\ f3 = [(txt "Signature", t)] | None => f3 = [] end.

(** a message below any number of extended link layers *)
Inductive below_ell : list N -> list N -> Prop :=
| BelowHere message : below_ell message message
| BelowEll cc acc rest message : below_ell rest message -> below_ell ([0x8C; cc; acc] ++ rest) message.

(** [transport payload acc st config]: the access number, status and configuration that a
    message without a long header gives: of its short header; or the access number of the
    extended link layer *)
Inductive transport : list N -> option N -> option N -> option (N * N) -> Prop :=
| TransShort ci acc st c0 c1 block :
    ci = 0x7A \/ 0xA1 <= ci <= 0xAF -> transport ([ci; acc; st; c0; c1] ++ block) (Some acc) (Some st) (Some (c0, c1))
| TransShortA0 x acc st c0 c1 block :
    transport ([0xA0; x; acc; st; c0; c1] ++ block) (Some acc) (Some st) (Some (c0, c1))
| TransNone block : transport (0x78 :: block) None None None
| TransEllShort cc acc rest acc' st config :
    transport rest (Some acc') (Some st) (Some config) ->
    transport ([0x8C; cc; acc] ++ rest) (Some acc') (Some st) (Some config)
| TransEllNone cc acc rest block : below_ell rest (0x78 :: block) ->
    transport ([0x8C; cc; acc] ++ rest) (Some acc) None None
| TransEllII cc acc s0 s1 s2 s3 p0 p1 block :
    transport ([0x8D; cc; acc; s0; s1; s2; s3; p0; p1] ++ block) (Some acc) None None
| TransEllIII cc acc m0 m1 a0 a1 a2 a3 a4 a5 s0 s1 s2 s3 p0 p1 block :
    transport ([0x8E; cc; acc; m0; m1; a0; a1; a2; a3; a4; a5; s0; s1; s2; s3; p0; p1] ++ block) (Some acc) None None.

(** EN 13757-3: the function of a value, bits 4 and 5 of the DIF, in the library and in libmbus *)
Inductive function_name : N -> function_field -> text -> Prop :=
| FnInstantaneous : function_name 0 InstantaneousValue (txt "Instantaneous value")
| FnMaximum : function_name 1 MaximumValue (txt "Maximum value")
| FnMinimum : function_name 2 MinimumValue (txt "Minimum value")
| FnError : function_name 3 ValueDuringErrorState (txt "Value during error state").

(** [six_digits z e]: z times 10^e can be shown with six digits after the point without loss, and
    is small enough for the arithmetic of f64 *)
Definition six_digits (z e : Z) : Prop :=
  (-6 <= e /\ (e < 0 -> Z.abs z <= 2000000000 * 10 ^ (- e)) /\ (0 <= e -> Z.abs (z * 10 ^ e) <= 2 ^ 53))%Z.

(** [xml_number fields r n z]: the fields give the unit and the quantity of the [n]-th code of
    the row [r], and the value [z] in that unit *)
Definition xml_number (fields : list (text * text)) (r : vif_row) (n : N) (z : Z) : Prop :=
  lookup (txt "Unit") fields = Some (vr_xml_unit r) /\ lookup (txt "Quantity") fields = Some (vr_xml_quantity r) /\
  exists t, lookup (txt "Value") fields = Some t /\
    (six_digits (z * vr_seconds r) (primary_scale r n) ->
     decimal_text t (inject_Z (z * vr_seconds r) * ten_power (primary_scale r n))%Q).

(** the text is a document, with data records numbered from 0 *)
Definition in_order (es : list (text * list (text * text))) : Prop :=
  forall i e, nth_error es i = Some e -> written (fst e) (N.of_nat i).
Definition readable_document (out : text) : Prop := exists slave es, document out = Some (slave, es) /\ in_order es.

(** EN 13757-3, fixed data structure: the units of the counters.  Most come in steps of ten, three
    codes from the one given. *)
Definition unit_steps : list (N * text) :=
  [ (0x02, txt "Wh"); (0x05, txt "kWh"); (0x08, txt "MWh"); (0x0B, txt "kJ"); (0x0E, txt "MJ"); (0x11, txt "GJ");
    (0x14, txt "W"); (0x17, txt "kW"); (0x1A, txt "MW"); (0x1D, txt "kJ/h"); (0x20, txt "MJ/h"); (0x23, txt "GJ/h");
    (0x26, txt "ml"); (0x29, txt "l"); (0x2C, txt "m^3"); (0x2F, txt "ml/h"); (0x32, txt "l/h"); (0x35, txt "m^3/h") ].
Inductive counter_unit : N -> text -> Prop :=
| CuOne first u : In (first, u) unit_steps -> counter_unit first u
| CuTen first u : In (first, u) unit_steps -> counter_unit (first + 1) (txt "10 " ++ u)
| CuHundred first u : In (first, u) unit_steps -> counter_unit (first + 2) (txt "100 " ++ u)
| CuTime : counter_unit 0x00 (txt "h,m,s")
| CuDate : counter_unit 0x01 (txt "D,M,Y")
| CuTemperature : counter_unit 0x38 (txt "1e-3 " ++ [0xB0] ++ txt "C")
| CuHca : counter_unit 0x39 (txt "units for HCA")
| CuNone : counter_unit 0x3F (txt "without units").
(** the media: two bits of each of the two bytes that also give the units *)
Definition counter_media : list text :=
  [ txt "Other"; txt "Oil"; txt "Electricity"; txt "Gas"; txt "Heat"; txt "Steam"; txt "Hot Water"; txt "Water"; txt "H.C.A.";
    txt "Reserved"; txt "Gas Mode 2"; txt "Heat Mode 2"; txt "Hot Water Mode 2"; txt "Water Mode 2"; txt "H.C.A. Mode 2"; txt "Reserved" ].

(** [counter_record ok st kind n fields]: the data record of a counter with the value [n], whose
    unit the byte [kind] gives; bit 6 of the status tells stored values.  [ok] says for which
    codes the unit is as it should be. *)
Definition counter_record (ok : N -> Prop) (st kind n : N) (fields : list (text * text)) : Prop :=
  exists unit_text value,
    fields = [ (txt "Function", if (st / 64) mod 2 =? 1 then txt "Stored value" else txt "Actual value");
               (txt "Unit", unit_text); (txt "Value", value) ] /\ written value n /\
    (forall name, ok (kind mod 64) -> counter_unit (kind mod 64) name -> unit_text = name).

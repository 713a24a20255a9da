(** Specification of the product names of libmbus. *)
From Coq Require Import List NArith String.
Import ListNotations.
From Verif Require Import Model.Base Model.Text.
Open Scope N_scope.
Open Scope list_scope.

(** which media a product has *)
Inductive medium_rule := Any | Only (m : N) | Except (m : N).
(** a product is told by a range of versions and the medium, or by the first two digits of the number of the meter *)
Inductive product_rule := Versions (first last : N) (m : medium_rule) | Digits (n : N).
Definition medium_fits (r : medium_rule) (d : N) : Prop := match r with Any => True | Only m => d = m | Except m => d <> m end.
Definition rule_fits (r : product_rule) (v d n : N) : Prop :=
  match r with Versions a b m => a <= v <= b /\ medium_fits m d | Digits k => n / 1000000 = k end.

(** the products known for each manufacturer *)
Definition products : list (text * list (product_rule * text)) :=
  [
    (txt "ABB", [(Versions 0x02 0x02 Any, txt "ABB Delta-Meter"); (Versions 0x20 0x20 Any, txt "ABB B21 113-100")]);
    (txt "ACW", [(Versions 0x09 0x09 Any, txt "Itron CF Echo 2");
       (Versions 0x0A 0x0A Any, txt "Itron CF 51");
       (Versions 0x0B 0x0B Any, txt "Itron CF 55");
       (Versions 0x0E 0x0E Any, txt "Itron BM +m");
       (Versions 0x0F 0x0F Any, txt "Itron CF 800");
       (Versions 0x14 0x14 Any, txt "Itron CYBLE M-Bus 1.4")]);
    (txt "BEC", [(Versions 0x00 0x00 (Only 0x02), txt "Berg DCMi");
       (Versions 0x07 0x07 (Only 0x02), txt "Berg BLMi");
       (Versions 0x71 0x71 (Only 0x0F), txt "Berg BMB-10S0")]);
    (txt "EFE", [(Versions 0x00 0x00 (Only 0x06), txt "Engelmann WaterStar");
       (Versions 0x00 0x00 (Except 0x06), txt "Engelmann / Elster SensoStar 2");
       (Versions 0x01 0x01 Any, txt "Engelmann SensoStar 2C")]);
    (txt "ELS", [(Versions 0x02 0x02 Any, txt "Elster TMP-A");
       (Versions 0x0A 0x0A Any, txt "Elster Falcon");
       (Versions 0x2F 0x2F Any, txt "Elster F96 Plus")]);
    (txt "ELV", [(Versions 0x14 0x1D Any, txt "Elvaco CMa10"); (Versions 0x32 0x3B Any, txt "Elvaco CMa11")]);
    (txt "EMH", [(Versions 0x00 0x00 Any, txt "EMH DIZ")]);
    (txt "EMU", [(Versions 0x10 0x10 (Only 0x02), txt "EMU Professional 3/75 M-Bus")]);
    (txt "GAV", [(Versions 0x2D 0x30 (Only 0x02), txt "Carlo Gavazzi EM24");
       (Versions 0x39 0x39 (Only 0x02), txt "Carlo Gavazzi EM21");
       (Versions 0x3A 0x3A (Only 0x02), txt "Carlo Gavazzi EM21");
       (Versions 0x40 0x40 (Only 0x02), txt "Carlo Gavazzi EM33")]);
    (txt "GMC", [(Versions 0xE6 0xE6 Any, txt "GMC-I A230 EMMOD 206")]);
    (txt "KAM", [(Versions 0x01 0x01 Any, txt "Kamstrup 382 (6850-005)"); (Versions 0x08 0x08 Any, txt "Kamstrup Multical 601")]);
    (txt "SLB", [(Versions 0x02 0x02 Any, txt "Allmess Megacontrol CF-50"); (Versions 0x06 0x06 Any, txt "CF Compact / Integral MK MaXX")]);
    (txt "HYD", [(Versions 0x28 0x28 Any, txt "ABB F95 Typ US770"); (Versions 0x2F 0x2F Any, txt "Hydrometer Sharky 775")]);
    (txt "JAN", [(Versions 0x09 0x09 (Only 0x02), txt "Janitza UMG 96S")]);
    (txt "LUG", [(Versions 0x02 0x02 Any, txt "Landis & Gyr Ultraheat 2WR5");
       (Versions 0x03 0x03 Any, txt "Landis & Gyr Ultraheat 2WR6");
       (Versions 0x04 0x04 Any, txt "Landis & Gyr Ultraheat UH50");
       (Versions 0x07 0x07 Any, txt "Landis & Gyr Ultraheat T230")]);
    (txt "LSE", [(Versions 0x99 0x99 Any, txt "Siemens WFH21")]);
    (txt "NZR", [(Versions 0x01 0x01 Any, txt "NZR DHZ 5/63"); (Versions 0x50 0x50 Any, txt "NZR IC-M2")]);
    (txt "RAM", [(Versions 0x03 0x03 Any, txt "Rossweiner ETK/ETW Modularis")]);
    (txt "REL", [(Versions 0x08 0x08 Any, txt "Relay PadPuls M1");
       (Versions 0x12 0x12 Any, txt "Relay PadPuls M4");
       (Versions 0x20 0x20 Any, txt "Relay Padin 4");
       (Versions 0x30 0x30 Any, txt "Relay AnDi 4");
       (Versions 0x40 0x40 Any, txt "Relay PadPuls M2")]);
    (txt "RKE", [(Versions 0x69 0x69 Any, txt "Ista sensonic II mbus")]);
    (txt "SBC", [(Digits 10, txt "Saia-Burgess ALE3");
       (Digits 19, txt "Saia-Burgess ALE3");
       (Digits 11, txt "Saia-Burgess AWD3")]);
    (txt "SEO", [(Digits 30, txt "Sensoco PT100");
       (Digits 41, txt "Sensoco 2-NTC");
       (Digits 45, txt "Sensoco Laser Light");
       (Digits 48, txt "Sensoco ADIO");
       (Digits 51, txt "Sensoco THU");
       (Digits 61, txt "Sensoco THU");
       (Digits 80, txt "Sensoco PulseCounter for E-Meter")]);
    (txt "GTE", [(Digits 30, txt "Sensoco PT100");
       (Digits 41, txt "Sensoco 2-NTC");
       (Digits 45, txt "Sensoco Laser Light");
       (Digits 48, txt "Sensoco ADIO");
       (Digits 51, txt "Sensoco THU");
       (Digits 61, txt "Sensoco THU");
       (Digits 80, txt "Sensoco PulseCounter for E-Meter")]);
    (txt "SEN", [(Versions 0x08 0x08 Any, txt "Sensus PolluCom E");
       (Versions 0x19 0x19 Any, txt "Sensus PolluCom E");
       (Versions 0x0B 0x0B Any, txt "Sensus PolluTherm");
       (Versions 0x0E 0x0E Any, txt "Sensus PolluStat E")]);
    (txt "SON", [(Versions 0x0D 0x0D Any, txt "Sontex Supercal 531")]);
    (txt "SPX", [(Versions 0x31 0x31 Any, txt "Sensus PolluTherm"); (Versions 0x34 0x34 Any, txt "Sensus PolluTherm")]);
    (txt "SVM", [(Versions 0x08 0x08 Any, txt "Elster F2 / Deltamess F2"); (Versions 0x09 0x09 Any, txt "Elster F4 / Kamstrup SVM F22")]);
    (txt "TCH", [(Versions 0x26 0x26 Any, txt "Techem m-bus S"); (Versions 0x40 0x40 Any, txt "Techem ultra S3")]);
    (txt "WZG", [(Versions 0x03 0x03 Any, txt "Modularis ETW-EAX")]);
    (txt "ZRM", [(Versions 0x81 0x81 Any, txt "Minol Minocal C2"); (Versions 0x82 0x82 Any, txt "Minol Minocal WR3")]);
    (txt "AMT", [(Versions 0xC0 0xFF Any, txt "Aquametro CALEC ST");
       (Versions 0x80 0xBF Any, txt "Aquametro CALEC MB");
       (Versions 0x40 0x7F Any, txt "Aquametro SAPHIR");
       (Versions 0x00 0x3F Any, txt "Aquametro AMTRON")])
  ].

(** [product_text maker v d n t]: the product of the manufacturer with that version, medium and number; no text if it is not known *)
Definition product (maker : text) (v d n : N) (name : text) : Prop :=
  exists rules r, In (maker, rules) products /\ In (r, name) rules /\ rule_fits r v d n.
Definition product_text (maker : text) (v d n : N) (t : text) : Prop :=
  product maker v d n t \/ (t = [] /\ forall name, ~ product maker v d n name).

(** The repository's own comparison with libmbus (tests/rscada_xml.rs:72-130) run on the model: for every frame
    tests/rscada/test-frames/NAME.hex that has a reference NAME.norm.xml, the model's XML document equals the reference
    byte for byte, except for the frames listed in KNOWN_MISMATCHES (tests/rscada_xml.rs:25-50), for which it differs,
    with and without the build setting [plaintext_before_extension].  These are tests of the model, not properties:
    no theorem depends on this file.  Generated from the files named above. *)
From Coq Require Import List NArith ZArith Bool String SpecFloat.
Import ListNotations.
From Verif Require Import Model.Base Model.Text Model.F64 Model.Hex Model.Output Model.Rscada Test.Aes.
Open Scope N_scope.

(** [10f64.powi(e)] for the small exponents that occur: the quotient of two exact numbers *)
Definition pow10 (e : Z) : f64 :=
  if (e <? 0)%Z then SFdiv 53 1024 (f64_of_Z 1) (f64_of_Z (10 ^ (- e))) else f64_of_Z (10 ^ e).
Definition test_env (before : bool) : environment :=
  {| env_config := {| overflow_checks := true; plaintext_before_extension := before |}; env_aes := aes128_decrypt;
     env_application_message := fun _ => []; env_record_message := fun _ => []; env_registry := fun _ => None |}.
Definition same (a b : text) : bool := if list_eq_dec N.eq_dec a b then true else false.
(** whether the document for the input is the reference; without and with plaintext before extension *)
Definition agrees (input reference : text) : bool * bool :=
  let one before :=
    match decode_hex_bytes input with
    | Ok d => match render_from_bytes (test_env before) pow10 d None with Ok t => same t reference | _ => false end
    | _ => false
    end in
  (one false, one true).

(** ACW_Itron-BM-plus-m *)
Example frame_00 : agrees
  (txt "68 3C 3C 68 08 08 72 78 03 49 11 77 04 0E 16 0A 00 00 00 0C 78 78 03 49 11 04 13 31 D4 00 00 42 6C 00 00 44 13 00 00 00 00 04 6D 0B 0B CD 13 02 27 00 00 09 FD 0E 02 09 FD 0F 06 0F 00 01 75 13 D3 16")%list
  (txt "<?xml version=""1.0"" encoding=""ISO-8859-1""?>
<MBusData>

    <SlaveInformation>
        <Id>11490378</Id>
        <Manufacturer>ACW</Manufacturer>
        <Version>14</Version>
        <ProductName>Itron BM +m</ProductName>
        <Medium>Cold water</Medium>
        <AccessNumber>10</AccessNumber>
        <Status>00</Status>
        <Signature>0000</Signature>
    </SlaveInformation>

    <DataRecord id=""0"">
        <Function>Instantaneous value</Function>
        <StorageNumber>0</StorageNumber>
        <Unit></Unit>
        <Quantity>Fabrication No</Quantity>
        <Value>11490378.000000</Value>
    </DataRecord>

    <DataRecord id=""1"">
        <Function>Instantaneous value</Function>
        <StorageNumber>0</StorageNumber>
        <Unit>m^3</Unit>
        <Quantity>Volume</Quantity>
        <Value>54.321000</Value>
    </DataRecord>

    <DataRecord id=""2"">
        <Function>Instantaneous value</Function>
        <StorageNumber>1</StorageNumber>
        <Unit>-</Unit>
        <Quantity>Time point (date)</Quantity>
        <Value>2000-00-00</Value>
    </DataRecord>

    <DataRecord id=""3"">
        <Function>Instantaneous value</Function>
        <StorageNumber>1</StorageNumber>
        <Unit>m^3</Unit>
        <Quantity>Volume</Quantity>
        <Value>0.000000</Value>
    </DataRecord>

    <DataRecord id=""4"">
        <Function>Instantaneous value</Function>
        <StorageNumber>0</StorageNumber>
        <Unit>-</Unit>
        <Quantity>Time point (date &amp; time)</Quantity>
        <Value>2014-03-13T11:11:00Z</Value>
    </DataRecord>

    <DataRecord id=""5"">
        <Function>Instantaneous value</Function>
        <StorageNumber>0</StorageNumber>
        <Unit>s</Unit>
        <Quantity>Operating time</Quantity>
        <Value>0.000000</Value>
    </DataRecord>

    <DataRecord id=""6"">
        <Function>Instantaneous value</Function>
        <StorageNumber>0</StorageNumber>
        <Unit></Unit>
        <Quantity>Firmware version</Quantity>
        <Value>2.000000</Value>
    </DataRecord>

    <DataRecord id=""7"">
        <Function>Instantaneous value</Function>
        <StorageNumber>0</StorageNumber>
        <Unit></Unit>
        <Quantity>Software version</Quantity>
        <Value>6.000000</Value>
    </DataRecord>

    <DataRecord id=""8"">
        <Function>Manufacturer specific</Function>
        <StorageNumber>0</StorageNumber>
        <Unit></Unit>
        <Quantity></Quantity>
        <Value>00 01 75 13</Value>
    </DataRecord>

</MBusData>
")%list = (true, true).
Proof. vm_compute. reflexivity. Qed.

(** ACW_Itron-CYBLE-M-Bus-14 *)
Example frame_01 : agrees
  (txt "68 56 56 68 08 01 72 23 15 01 09 77 04 14 07 25 00 00 00 0C 78 23 15 01 09 0D 7C 08 44 49 20 2E 74 73 75 63 0A 35 35 37 36 37 30 41 4C 39 30 04 6D 1A 0E CD 13 02 7C 09 65 6D 69 74 20 2E 74 61 62 D4 09 04 13 1F 00 00 00 04 93 7F 00 00 00 00 44 13 1F 00 00 00 0F 00 01 1F A9 16")%list
  (txt "<?xml version=""1.0"" encoding=""ISO-8859-1""?>
<MBusData>

    <SlaveInformation>
        <Id>9011523</Id>
        <Manufacturer>ACW</Manufacturer>
        <Version>20</Version>
        <ProductName>Itron CYBLE M-Bus 1.4</ProductName>
        <Medium>Water</Medium>
        <AccessNumber>37</AccessNumber>
        <Status>00</Status>
        <Signature>0000</Signature>
    </SlaveInformation>

    <DataRecord id=""0"">
        <Function>Instantaneous value</Function>
        <StorageNumber>0</StorageNumber>
        <Unit></Unit>
        <Quantity>Fabrication No</Quantity>
        <Value>9011523.000000</Value>
    </DataRecord>

    <DataRecord id=""1"">
        <Function>Instantaneous value</Function>
        <StorageNumber>0</StorageNumber>
        <Unit>-</Unit>
        <Quantity>cust. ID</Quantity>
        <Value>09LA076755</Value>
    </DataRecord>

    <DataRecord id=""2"">
        <Function>Instantaneous value</Function>
        <StorageNumber>0</StorageNumber>
        <Unit>-</Unit>
        <Quantity>Time point (date &amp; time)</Quantity>
        <Value>2014-03-13T14:26:00Z</Value>
    </DataRecord>

    <DataRecord id=""3"">
        <Function>Instantaneous value</Function>
        <StorageNumber>0</StorageNumber>
        <Unit>-</Unit>
        <Quantity>bat. time</Quantity>
        <Value>2516.000000</Value>
    </DataRecord>

    <DataRecord id=""4"">
        <Function>Instantaneous value</Function>
        <StorageNumber>0</StorageNumber>
        <Unit>m^3</Unit>
        <Quantity>Volume</Quantity>
        <Value>0.031000</Value>
    </DataRecord>

    <DataRecord id=""5"">
        <Function>Instantaneous value</Function>
        <StorageNumber>0</StorageNumber>
        <Unit>m^3</Unit>
        <Quantity>Volume</Quantity>
        <Value>0.000000</Value>
    </DataRecord>

    <DataRecord id=""6"">
        <Function>Instantaneous value</Function>
        <StorageNumber>1</StorageNumber>
        <Unit>m^3</Unit>
        <Quantity>Volume</Quantity>
        <Value>0.031000</Value>
    </DataRecord>

    <DataRecord id=""7"">
        <Function>Manufacturer specific</Function>
        <StorageNumber>0</StorageNumber>
        <Unit></Unit>
        <Quantity></Quantity>
        <Value>00 01 1F</Value>
    </DataRecord>

</MBusData>
")%list = (false, true).
Proof. vm_compute. reflexivity. Qed.

(** EDC *)
Example frame_02 : agrees
  (txt "68 AE AE 68 28 01 72 95 08 12 11 83 14 02 04 17 00 00 00 84 00 86 3B 23 00 00 00 84 00 86 3C D1 01 00 00 84 40 86 3B 00 00 00 00 84 40 86 3C 00 00 00 00 85 00 5B 2B 4B AC 41 85 00 5F 20 D7 AC 41 85 40 5B 00 00 B8 42 85 40 5F 00 00 B8 42 85 00 3B 84 00 35 3F 85 40 3B 00 00 00 00 95 00 3B 95 CF B2 43 95 40 3B 00 00 00 00 85 00 2B 00 00 00 00 85 40 2B 00 00 00 00 95 00 2B D3 9F 90 46 95 40 2B 00 00 00 00 04 6D 19 0F 8A 17 84 00 7C 01 43 F3 0D 00 00 84 40 7C 01 43 9D 01 00 00 84 00 7C 01 63 01 00 00 00 84 40 7C 01 63 01 00 00 00 0F 2F 16
")%list
  (txt "<?xml version=""1.0"" encoding=""ISO-8859-1""?>
<MBusData>

    <SlaveInformation>
        <Id>11120895</Id>
        <Manufacturer>EDC</Manufacturer>
        <Version>2</Version>
        <ProductName></ProductName>
        <Medium>Heat: Outlet</Medium>
        <AccessNumber>23</AccessNumber>
        <Status>00</Status>
        <Signature>0000</Signature>
    </SlaveInformation>

    <DataRecord id=""0"">
        <Function>Instantaneous value</Function>
        <StorageNumber>0</StorageNumber>
        <Tariff>0</Tariff>
        <Device>0</Device>
        <Unit>Wh</Unit>
        <Quantity>Energy</Quantity>
        <Value>35000.000000</Value>
    </DataRecord>

    <DataRecord id=""1"">
        <Function>Instantaneous value</Function>
        <StorageNumber>0</StorageNumber>
        <Tariff>0</Tariff>
        <Device>0</Device>
        <Unit>Wh</Unit>
        <Quantity>Energy</Quantity>
        <Value>465000.000000</Value>
    </DataRecord>

    <DataRecord id=""2"">
        <Function>Instantaneous value</Function>
        <StorageNumber>0</StorageNumber>
        <Tariff>0</Tariff>
        <Device>1</Device>
        <Unit>Wh</Unit>
        <Quantity>Energy</Quantity>
        <Value>0.000000</Value>
    </DataRecord>

    <DataRecord id=""3"">
        <Function>Instantaneous value</Function>
        <StorageNumber>0</StorageNumber>
        <Tariff>0</Tariff>
        <Device>1</Device>
        <Unit>Wh</Unit>
        <Quantity>Energy</Quantity>
        <Value>0.000000</Value>
    </DataRecord>

    <DataRecord id=""4"">
        <Function>Instantaneous value</Function>
        <StorageNumber>0</StorageNumber>
        <Tariff>0</Tariff>
        <Device>0</Device>
        <Unit>" ++ [176] ++ txt "C</Unit>
        <Quantity>Flow temperature</Quantity>
        <Value>21.536703</Value>
    </DataRecord>

    <DataRecord id=""5"">
        <Function>Instantaneous value</Function>
        <StorageNumber>0</StorageNumber>
        <Tariff>0</Tariff>
        <Device>0</Device>
        <Unit>" ++ [176] ++ txt "C</Unit>
        <Quantity>Return temperature</Quantity>
        <Value>21.605042</Value>
    </DataRecord>

    <DataRecord id=""6"">
        <Function>Instantaneous value</Function>
        <StorageNumber>0</StorageNumber>
        <Tariff>0</Tariff>
        <Device>1</Device>
        <Unit>" ++ [176] ++ txt "C</Unit>
        <Quantity>Flow temperature</Quantity>
        <Value>92.000000</Value>
    </DataRecord>

    <DataRecord id=""7"">
        <Function>Instantaneous value</Function>
        <StorageNumber>0</StorageNumber>
        <Tariff>0</Tariff>
        <Device>1</Device>
        <Unit>" ++ [176] ++ txt "C</Unit>
        <Quantity>Return temperature</Quantity>
        <Value>92.000000</Value>
    </DataRecord>

    <DataRecord id=""8"">
        <Function>Instantaneous value</Function>
        <StorageNumber>0</StorageNumber>
        <Tariff>0</Tariff>
        <Device>0</Device>
        <Unit>m^3/h</Unit>
        <Quantity>Volume flow</Quantity>
        <Value>0.000707</Value>
    </DataRecord>

    <DataRecord id=""9"">
        <Function>Instantaneous value</Function>
        <StorageNumber>0</StorageNumber>
        <Tariff>0</Tariff>
        <Device>1</Device>
        <Unit>m^3/h</Unit>
        <Quantity>Volume flow</Quantity>
        <Value>0.000000</Value>
    </DataRecord>

    <DataRecord id=""10"">
        <Function>Maximum value</Function>
        <StorageNumber>0</StorageNumber>
        <Tariff>0</Tariff>
        <Device>0</Device>
        <Unit>m^3/h</Unit>
        <Quantity>Volume flow</Quantity>
        <Value>0.357622</Value>
    </DataRecord>

    <DataRecord id=""11"">
        <Function>Maximum value</Function>
        <StorageNumber>0</StorageNumber>
        <Tariff>0</Tariff>
        <Device>1</Device>
        <Unit>m^3/h</Unit>
        <Quantity>Volume flow</Quantity>
        <Value>0.000000</Value>
    </DataRecord>

    <DataRecord id=""12"">
        <Function>Instantaneous value</Function>
        <StorageNumber>0</StorageNumber>
        <Tariff>0</Tariff>
        <Device>0</Device>
        <Unit>W</Unit>
        <Quantity>Power</Quantity>
        <Value>0.000000</Value>
    </DataRecord>

    <DataRecord id=""13"">
        <Function>Instantaneous value</Function>
        <StorageNumber>0</StorageNumber>
        <Tariff>0</Tariff>
        <Device>1</Device>
        <Unit>W</Unit>
        <Quantity>Power</Quantity>
        <Value>0.000000</Value>
    </DataRecord>

    <DataRecord id=""14"">
        <Function>Maximum value</Function>
        <StorageNumber>0</StorageNumber>
        <Tariff>0</Tariff>
        <Device>0</Device>
        <Unit>W</Unit>
        <Quantity>Power</Quantity>
        <Value>18511.912109</Value>
    </DataRecord>

    <DataRecord id=""15"">
        <Function>Maximum value</Function>
        <StorageNumber>0</StorageNumber>
        <Tariff>0</Tariff>
        <Device>1</Device>
        <Unit>W</Unit>
        <Quantity>Power</Quantity>
        <Value>0.000000</Value>
    </DataRecord>

    <DataRecord id=""16"">
        <Function>Instantaneous value</Function>
        <StorageNumber>0</StorageNumber>
        <Unit>-</Unit>
        <Quantity>Time point (date &amp; time)</Quantity>
        <Value>2012-07-10T15:25:00Z</Value>
    </DataRecord>

    <DataRecord id=""17"">
        <Function>Instantaneous value</Function>
        <StorageNumber>0</StorageNumber>
        <Tariff>0</Tariff>
        <Device>0</Device>
        <Unit>-</Unit>
        <Quantity>C</Quantity>
        <Value>3571.000000</Value>
    </DataRecord>

    <DataRecord id=""18"">
        <Function>Instantaneous value</Function>
        <StorageNumber>0</StorageNumber>
        <Tariff>0</Tariff>
        <Device>1</Device>
        <Unit>-</Unit>
        <Quantity>C</Quantity>
        <Value>413.000000</Value>
    </DataRecord>

    <DataRecord id=""19"">
        <Function>Instantaneous value</Function>
        <StorageNumber>0</StorageNumber>
        <Tariff>0</Tariff>
        <Device>0</Device>
        <Unit>-</Unit>
        <Quantity>c</Quantity>
        <Value>1.000000</Value>
    </DataRecord>

    <DataRecord id=""20"">
        <Function>Instantaneous value</Function>
        <StorageNumber>0</StorageNumber>
        <Tariff>0</Tariff>
        <Device>1</Device>
        <Unit>-</Unit>
        <Quantity>c</Quantity>
        <Value>1.000000</Value>
    </DataRecord>

    <DataRecord id=""21"">
        <Function>Manufacturer specific</Function>
        <StorageNumber>0</StorageNumber>
        <Unit></Unit>
        <Quantity></Quantity>
        <Value></Value>
    </DataRecord>

</MBusData>
")%list = (false, true).
Proof. vm_compute. reflexivity. Qed.

(** EFE_Engelmann-Elster-SensoStar-2 *)
Example frame_03 : agrees
  (txt "68 A1 A1 68 08 00 72 45 33 08 24 C5 14 00 04 66 27 00 00 04 78 91 7B 6F 01 04 6D 17 2E CC 13 04 15 00 00 00 00 44 15 00 00 00 00 84 01 15 00 00 00 00 04 06 00 00 00 00 44 06 00 00 00 00 84 01 06 00 00 00 00 84 10 06 00 00 00 00 C4 10 06 00 00 00 00 84 11 06 00 00 00 00 42 6C BF 1C 02 6C DF 1C 84 20 06 00 00 00 00 84 30 06 00 00 00 00 04 3B 00 00 00 00 14 3B 19 00 00 00 04 2B 00 00 00 00 14 2B 0B 00 00 00 02 5B 16 00 02 5F 15 00 04 61 09 00 00 00 02 23 0C 02 01 FD 17 00 04 90 28 0B 00 00 00 EB 16")%list
  (txt "<?xml version=""1.0"" encoding=""ISO-8859-1""?>
<MBusData>

    <SlaveInformation>
        <Id>24083345</Id>
        <Manufacturer>EFE</Manufacturer>
        <Version>0</Version>
        <ProductName>Engelmann / Elster SensoStar 2</ProductName>
        <Medium>Heat: Outlet</Medium>
        <AccessNumber>102</AccessNumber>
        <Status>27</Status>
        <Signature>0000</Signature>
    </SlaveInformation>

    <DataRecord id=""0"">
        <Function>Instantaneous value</Function>
        <StorageNumber>0</StorageNumber>
        <Unit></Unit>
        <Quantity>Fabrication No</Quantity>
        <Value>24083345.000000</Value>
    </DataRecord>

    <DataRecord id=""1"">
        <Function>Instantaneous value</Function>
        <StorageNumber>0</StorageNumber>
        <Unit>-</Unit>
        <Quantity>Time point (date &amp; time)</Quantity>
        <Value>2014-03-12T14:23:00Z</Value>
    </DataRecord>

    <DataRecord id=""2"">
        <Function>Instantaneous value</Function>
        <StorageNumber>0</StorageNumber>
        <Unit>m^3</Unit>
        <Quantity>Volume</Quantity>
        <Value>0.000000</Value>
    </DataRecord>

    <DataRecord id=""3"">
        <Function>Instantaneous value</Function>
        <StorageNumber>1</StorageNumber>
        <Unit>m^3</Unit>
        <Quantity>Volume</Quantity>
        <Value>0.000000</Value>
    </DataRecord>

    <DataRecord id=""4"">
        <Function>Instantaneous value</Function>
        <StorageNumber>2</StorageNumber>
        <Tariff>0</Tariff>
        <Device>0</Device>
        <Unit>m^3</Unit>
        <Quantity>Volume</Quantity>
        <Value>0.000000</Value>
    </DataRecord>

    <DataRecord id=""5"">
        <Function>Instantaneous value</Function>
        <StorageNumber>0</StorageNumber>
        <Unit>Wh</Unit>
        <Quantity>Energy</Quantity>
        <Value>0.000000</Value>
    </DataRecord>

    <DataRecord id=""6"">
        <Function>Instantaneous value</Function>
        <StorageNumber>1</StorageNumber>
        <Unit>Wh</Unit>
        <Quantity>Energy</Quantity>
        <Value>0.000000</Value>
    </DataRecord>

    <DataRecord id=""7"">
        <Function>Instantaneous value</Function>
        <StorageNumber>2</StorageNumber>
        <Tariff>0</Tariff>
        <Device>0</Device>
        <Unit>Wh</Unit>
        <Quantity>Energy</Quantity>
        <Value>0.000000</Value>
    </DataRecord>

    <DataRecord id=""8"">
        <Function>Instantaneous value</Function>
        <StorageNumber>0</StorageNumber>
        <Tariff>1</Tariff>
        <Device>0</Device>
        <Unit>Wh</Unit>
        <Quantity>Energy</Quantity>
        <Value>0.000000</Value>
    </DataRecord>

    <DataRecord id=""9"">
        <Function>Instantaneous value</Function>
        <StorageNumber>1</StorageNumber>
        <Tariff>1</Tariff>
        <Device>0</Device>
        <Unit>Wh</Unit>
        <Quantity>Energy</Quantity>
        <Value>0.000000</Value>
    </DataRecord>

    <DataRecord id=""10"">
        <Function>Instantaneous value</Function>
        <StorageNumber>2</StorageNumber>
        <Tariff>1</Tariff>
        <Device>0</Device>
        <Unit>Wh</Unit>
        <Quantity>Energy</Quantity>
        <Value>0.000000</Value>
    </DataRecord>

    <DataRecord id=""11"">
        <Function>Instantaneous value</Function>
        <StorageNumber>1</StorageNumber>
        <Unit>-</Unit>
        <Quantity>Time point (date)</Quantity>
        <Value>2013-12-31</Value>
    </DataRecord>

    <DataRecord id=""12"">
        <Function>Instantaneous value</Function>
        <StorageNumber>0</StorageNumber>
        <Unit>-</Unit>
        <Quantity>Time point (date)</Quantity>
        <Value>2014-12-31</Value>
    </DataRecord>

    <DataRecord id=""13"">
        <Function>Instantaneous value</Function>
        <StorageNumber>0</StorageNumber>
        <Tariff>2</Tariff>
        <Device>0</Device>
        <Unit>Wh</Unit>
        <Quantity>Energy</Quantity>
        <Value>0.000000</Value>
    </DataRecord>

    <DataRecord id=""14"">
        <Function>Instantaneous value</Function>
        <StorageNumber>0</StorageNumber>
        <Tariff>3</Tariff>
        <Device>0</Device>
        <Unit>Wh</Unit>
        <Quantity>Energy</Quantity>
        <Value>0.000000</Value>
    </DataRecord>

    <DataRecord id=""15"">
        <Function>Instantaneous value</Function>
        <StorageNumber>0</StorageNumber>
        <Unit>m^3/h</Unit>
        <Quantity>Volume flow</Quantity>
        <Value>0.000000</Value>
    </DataRecord>

    <DataRecord id=""16"">
        <Function>Maximum value</Function>
        <StorageNumber>0</StorageNumber>
        <Unit>m^3/h</Unit>
        <Quantity>Volume flow</Quantity>
        <Value>0.025000</Value>
    </DataRecord>

    <DataRecord id=""17"">
        <Function>Instantaneous value</Function>
        <StorageNumber>0</StorageNumber>
        <Unit>W</Unit>
        <Quantity>Power</Quantity>
        <Value>0.000000</Value>
    </DataRecord>

    <DataRecord id=""18"">
        <Function>Maximum value</Function>
        <StorageNumber>0</StorageNumber>
        <Unit>W</Unit>
        <Quantity>Power</Quantity>
        <Value>11.000000</Value>
    </DataRecord>

    <DataRecord id=""19"">
        <Function>Instantaneous value</Function>
        <StorageNumber>0</StorageNumber>
        <Unit>" ++ [176] ++ txt "C</Unit>
        <Quantity>Flow temperature</Quantity>
        <Value>22.000000</Value>
    </DataRecord>

    <DataRecord id=""20"">
        <Function>Instantaneous value</Function>
        <StorageNumber>0</StorageNumber>
        <Unit>" ++ [176] ++ txt "C</Unit>
        <Quantity>Return temperature</Quantity>
        <Value>21.000000</Value>
    </DataRecord>

    <DataRecord id=""21"">
        <Function>Instantaneous value</Function>
        <StorageNumber>0</StorageNumber>
        <Unit>K</Unit>
        <Quantity>Temperature difference</Quantity>
        <Value>0.090000</Value>
    </DataRecord>

    <DataRecord id=""22"">
        <Function>Instantaneous value</Function>
        <StorageNumber>0</StorageNumber>
        <Unit>s</Unit>
        <Quantity>On time</Quantity>
        <Value>45273600.000000</Value>
    </DataRecord>

    <DataRecord id=""23"">
        <Function>Instantaneous value</Function>
        <StorageNumber>0</StorageNumber>
        <Unit></Unit>
        <Quantity>Error flags</Quantity>
        <Value>0.000000</Value>
    </DataRecord>

    <DataRecord id=""24"">
        <Function>Instantaneous value</Function>
        <StorageNumber>0</StorageNumber>
        <Unit>m^3</Unit>
        <Quantity>Volume</Quantity>
        <Value>0.000011</Value>
    </DataRecord>

</MBusData>
")%list = (true, true).
Proof. vm_compute. reflexivity. Qed.

(** EFE_Engelmann-WaterStar *)
Example frame_04 : agrees
  (txt "68 51 51 68 08 0B 72 54 02 99 04 C5 14 00 06 0C 27 00 00 04 78 2E 25 4C 00 04 6D 0A 0C CD 13 04 13 4C 01 00 00 44 13 4B 01 00 00 84 01 13 4C 01 00 00 42 6C BF 1C 02 6C DF 1C 04 3B 00 00 00 00 14 3B 16 08 00 00 02 23 A7 04 01 FD 17 00 04 90 28 08 00 00 00 3F 16")%list
  (txt "<?xml version=""1.0"" encoding=""ISO-8859-1""?>
<MBusData>

    <SlaveInformation>
        <Id>4990254</Id>
        <Manufacturer>EFE</Manufacturer>
        <Version>0</Version>
        <ProductName>Engelmann WaterStar</ProductName>
        <Medium>Warm water (30-90" ++ [176] ++ txt "C)</Medium>
        <AccessNumber>12</AccessNumber>
        <Status>27</Status>
        <Signature>0000</Signature>
    </SlaveInformation>

    <DataRecord id=""0"">
        <Function>Instantaneous value</Function>
        <StorageNumber>0</StorageNumber>
        <Unit></Unit>
        <Quantity>Fabrication No</Quantity>
        <Value>4990254.000000</Value>
    </DataRecord>

    <DataRecord id=""1"">
        <Function>Instantaneous value</Function>
        <StorageNumber>0</StorageNumber>
        <Unit>-</Unit>
        <Quantity>Time point (date &amp; time)</Quantity>
        <Value>2014-03-13T12:10:00Z</Value>
    </DataRecord>

    <DataRecord id=""2"">
        <Function>Instantaneous value</Function>
        <StorageNumber>0</StorageNumber>
        <Unit>m^3</Unit>
        <Quantity>Volume</Quantity>
        <Value>0.332000</Value>
    </DataRecord>

    <DataRecord id=""3"">
        <Function>Instantaneous value</Function>
        <StorageNumber>1</StorageNumber>
        <Unit>m^3</Unit>
        <Quantity>Volume</Quantity>
        <Value>0.331000</Value>
    </DataRecord>

    <DataRecord id=""4"">
        <Function>Instantaneous value</Function>
        <StorageNumber>2</StorageNumber>
        <Tariff>0</Tariff>
        <Device>0</Device>
        <Unit>m^3</Unit>
        <Quantity>Volume</Quantity>
        <Value>0.332000</Value>
    </DataRecord>

    <DataRecord id=""5"">
        <Function>Instantaneous value</Function>
        <StorageNumber>1</StorageNumber>
        <Unit>-</Unit>
        <Quantity>Time point (date)</Quantity>
        <Value>2013-12-31</Value>
    </DataRecord>

    <DataRecord id=""6"">
        <Function>Instantaneous value</Function>
        <StorageNumber>0</StorageNumber>
        <Unit>-</Unit>
        <Quantity>Time point (date)</Quantity>
        <Value>2014-12-31</Value>
    </DataRecord>

    <DataRecord id=""7"">
        <Function>Instantaneous value</Function>
        <StorageNumber>0</StorageNumber>
        <Unit>m^3/h</Unit>
        <Quantity>Volume flow</Quantity>
        <Value>0.000000</Value>
    </DataRecord>

    <DataRecord id=""8"">
        <Function>Maximum value</Function>
        <StorageNumber>0</StorageNumber>
        <Unit>m^3/h</Unit>
        <Quantity>Volume flow</Quantity>
        <Value>2.070000</Value>
    </DataRecord>

    <DataRecord id=""9"">
        <Function>Instantaneous value</Function>
        <StorageNumber>0</StorageNumber>
        <Unit>s</Unit>
        <Quantity>On time</Quantity>
        <Value>102902400.000000</Value>
    </DataRecord>

    <DataRecord id=""10"">
        <Function>Instantaneous value</Function>
        <StorageNumber>0</StorageNumber>
        <Unit></Unit>
        <Quantity>Error flags</Quantity>
        <Value>0.000000</Value>
    </DataRecord>

    <DataRecord id=""11"">
        <Function>Instantaneous value</Function>
        <StorageNumber>0</StorageNumber>
        <Unit>m^3</Unit>
        <Quantity>Volume</Quantity>
        <Value>0.000008</Value>
    </DataRecord>

</MBusData>
")%list = (true, true).
Proof. vm_compute. reflexivity. Qed.

(** ELS_Elster-F96-Plus *)
Example frame_05 : agrees
  (txt "68 68 68 68 08 00 72 51 39 49 44 93 15 2F 04 A1 70 00 00 0C 06 00 00 00 00 8C 10 06 00 00 00 00 8C 20 13 00 00 00 00 0C 13 00 00 00 00 3C 2B BD EB DD DD 3B 3B BD EB DD 0A 5A 27 02 0A 5E 26 02 0A 62 01 00 0A 27 30 07 04 6D 09 0D CD 13 4C 06 00 00 00 00 4C 13 00 00 00 00 CC 10 06 00 00 00 00 CC 20 13 00 00 00 00 42 6C BF 15 40 16")%list
  (txt "<?xml version=""1.0"" encoding=""ISO-8859-1""?>
<MBusData>

    <SlaveInformation>
        <Id>44493951</Id>
        <Manufacturer>ELS</Manufacturer>
        <Version>47</Version>
        <ProductName>Elster F96 Plus</ProductName>
        <Medium>Heat: Outlet</Medium>
        <AccessNumber>161</AccessNumber>
        <Status>70</Status>
        <Signature>0000</Signature>
    </SlaveInformation>

    <DataRecord id=""0"">
        <Function>Instantaneous value</Function>
        <StorageNumber>0</StorageNumber>
        <Unit>Wh</Unit>
        <Quantity>Energy</Quantity>
        <Value>0.000000</Value>
    </DataRecord>

    <DataRecord id=""1"">
        <Function>Instantaneous value</Function>
        <StorageNumber>0</StorageNumber>
        <Tariff>1</Tariff>
        <Device>0</Device>
        <Unit>Wh</Unit>
        <Quantity>Energy</Quantity>
        <Value>0.000000</Value>
    </DataRecord>

    <DataRecord id=""2"">
        <Function>Instantaneous value</Function>
        <StorageNumber>0</StorageNumber>
        <Tariff>2</Tariff>
        <Device>0</Device>
        <Unit>m^3</Unit>
        <Quantity>Volume</Quantity>
        <Value>0.000000</Value>
    </DataRecord>

    <DataRecord id=""3"">
        <Function>Instantaneous value</Function>
        <StorageNumber>0</StorageNumber>
        <Unit>m^3</Unit>
        <Quantity>Volume</Quantity>
        <Value>0.000000</Value>
    </DataRecord>

    <DataRecord id=""4"">
        <Function>Value during error state</Function>
        <StorageNumber>0</StorageNumber>
        <Unit>W</Unit>
        <Quantity>Power</Quantity>
        <Value>13131113.000000</Value>
    </DataRecord>

    <DataRecord id=""5"">
        <Function>Value during error state</Function>
        <StorageNumber>0</StorageNumber>
        <Unit>m^3/h</Unit>
        <Quantity>Volume flow</Quantity>
        <Value>131.113000</Value>
    </DataRecord>

    <DataRecord id=""6"">
        <Function>Instantaneous value</Function>
        <StorageNumber>0</StorageNumber>
        <Unit>" ++ [176] ++ txt "C</Unit>
        <Quantity>Flow temperature</Quantity>
        <Value>22.700000</Value>
    </DataRecord>

    <DataRecord id=""7"">
        <Function>Instantaneous value</Function>
        <StorageNumber>0</StorageNumber>
        <Unit>" ++ [176] ++ txt "C</Unit>
        <Quantity>Return temperature</Quantity>
        <Value>22.600000</Value>
    </DataRecord>

    <DataRecord id=""8"">
        <Function>Instantaneous value</Function>
        <StorageNumber>0</StorageNumber>
        <Unit>K</Unit>
        <Quantity>Temperature difference</Quantity>
        <Value>0.100000</Value>
    </DataRecord>

    <DataRecord id=""9"">
        <Function>Instantaneous value</Function>
        <StorageNumber>0</StorageNumber>
        <Unit>s</Unit>
        <Quantity>Operating time</Quantity>
        <Value>63072000.000000</Value>
    </DataRecord>

    <DataRecord id=""10"">
        <Function>Instantaneous value</Function>
        <StorageNumber>0</StorageNumber>
        <Unit>-</Unit>
        <Quantity>Time point (date &amp; time)</Quantity>
        <Value>2014-03-13T13:09:00Z</Value>
    </DataRecord>

    <DataRecord id=""11"">
        <Function>Instantaneous value</Function>
        <StorageNumber>1</StorageNumber>
        <Unit>Wh</Unit>
        <Quantity>Energy</Quantity>
        <Value>0.000000</Value>
    </DataRecord>

    <DataRecord id=""12"">
        <Function>Instantaneous value</Function>
        <StorageNumber>1</StorageNumber>
        <Unit>m^3</Unit>
        <Quantity>Volume</Quantity>
        <Value>0.000000</Value>
    </DataRecord>

    <DataRecord id=""13"">
        <Function>Instantaneous value</Function>
        <StorageNumber>1</StorageNumber>
        <Tariff>1</Tariff>
        <Device>0</Device>
        <Unit>Wh</Unit>
        <Quantity>Energy</Quantity>
        <Value>0.000000</Value>
    </DataRecord>

    <DataRecord id=""14"">
        <Function>Instantaneous value</Function>
        <StorageNumber>1</StorageNumber>
        <Tariff>2</Tariff>
        <Device>0</Device>
        <Unit>m^3</Unit>
        <Quantity>Volume</Quantity>
        <Value>0.000000</Value>
    </DataRecord>

    <DataRecord id=""15"">
        <Function>Instantaneous value</Function>
        <StorageNumber>1</StorageNumber>
        <Unit>-</Unit>
        <Quantity>Time point (date)</Quantity>
        <Value>2013-05-31</Value>
    </DataRecord>

</MBusData>
")%list = (false, false).
Proof. vm_compute. reflexivity. Qed.

(** ELV-Elvaco-CMa10 *)
Example frame_06 : agrees
  (txt "68 53 53 68 08 0B 72 61 15 01 24 96 15 16 00 3F 00 00 00 01 FD 1B 02 02 FC 03 48 52 25 74 22 15 22 FC 03 48 52 25 74 24 0D 12 FC 03 48 52 25 74 C3 1C 02 65 2E 08 22 65 5C 05 12 65 A2 0B 01 72 18 42 65 2C 08 82 01 65 1F 08 0C 78 61 15 01 24 03 FD 0F 00 00 04 1F BD 16
")%list
  (txt "<?xml version=""1.0"" encoding=""ISO-8859-1""?>
<MBusData>

    <SlaveInformation>
        <Id>24011561</Id>
        <Manufacturer>ELV</Manufacturer>
        <Version>22</Version>
        <ProductName>Elvaco CMa10</ProductName>
        <Medium>Other</Medium>
        <AccessNumber>63</AccessNumber>
        <Status>00</Status>
        <Signature>0000</Signature>
    </SlaveInformation>

    <DataRecord id=""0"">
        <Function>Instantaneous value</Function>
        <StorageNumber>0</StorageNumber>
        <Unit></Unit>
        <Quantity>Digital Input</Quantity>
        <Value>2.000000</Value>
    </DataRecord>

    <DataRecord id=""1"">
        <Function>Instantaneous value</Function>
        <StorageNumber>0</StorageNumber>
        <Unit>-</Unit>
        <Quantity>%RH</Quantity>
        <Value>54.100000</Value>
    </DataRecord>

    <DataRecord id=""2"">
        <Function>Minimum value</Function>
        <StorageNumber>0</StorageNumber>
        <Unit>-</Unit>
        <Quantity>%RH</Quantity>
        <Value>33.640000</Value>
    </DataRecord>

    <DataRecord id=""3"">
        <Function>Maximum value</Function>
        <StorageNumber>0</StorageNumber>
        <Unit>-</Unit>
        <Quantity>%RH</Quantity>
        <Value>73.630000</Value>
    </DataRecord>

    <DataRecord id=""4"">
        <Function>Instantaneous value</Function>
        <StorageNumber>0</StorageNumber>
        <Unit>" ++ [176] ++ txt "C</Unit>
        <Quantity>External temperature</Quantity>
        <Value>20.940000</Value>
    </DataRecord>

    <DataRecord id=""5"">
        <Function>Minimum value</Function>
        <StorageNumber>0</StorageNumber>
        <Unit>" ++ [176] ++ txt "C</Unit>
        <Quantity>External temperature</Quantity>
        <Value>13.720000</Value>
    </DataRecord>

    <DataRecord id=""6"">
        <Function>Maximum value</Function>
        <StorageNumber>0</StorageNumber>
        <Unit>" ++ [176] ++ txt "C</Unit>
        <Quantity>External temperature</Quantity>
        <Value>29.780000</Value>
    </DataRecord>

    <DataRecord id=""7"">
        <Function>Instantaneous value</Function>
        <StorageNumber>0</StorageNumber>
        <Unit>s</Unit>
        <Quantity>Averaging Duration</Quantity>
        <Value>86400.000000</Value>
    </DataRecord>

    <DataRecord id=""8"">
        <Function>Instantaneous value</Function>
        <StorageNumber>1</StorageNumber>
        <Unit>" ++ [176] ++ txt "C</Unit>
        <Quantity>External temperature</Quantity>
        <Value>20.920000</Value>
    </DataRecord>

    <DataRecord id=""9"">
        <Function>Instantaneous value</Function>
        <StorageNumber>2</StorageNumber>
        <Tariff>0</Tariff>
        <Device>0</Device>
        <Unit>" ++ [176] ++ txt "C</Unit>
        <Quantity>External temperature</Quantity>
        <Value>20.790000</Value>
    </DataRecord>

    <DataRecord id=""10"">
        <Function>Instantaneous value</Function>
        <StorageNumber>0</StorageNumber>
        <Unit></Unit>
        <Quantity>Fabrication No</Quantity>
        <Value>24011561.000000</Value>
    </DataRecord>

    <DataRecord id=""11"">
        <Function>Instantaneous value</Function>
        <StorageNumber>0</StorageNumber>
        <Unit></Unit>
        <Quantity>Software version</Quantity>
        <Value>262144.000000</Value>
    </DataRecord>

    <DataRecord id=""12"">
        <Function>More records follow</Function>
        <StorageNumber>0</StorageNumber>
        <Unit></Unit>
        <Quantity></Quantity>
        <Value></Value>
    </DataRecord>

</MBusData>
")%list = (false, true).
Proof. vm_compute. reflexivity. Qed.

(** EMU_EMU-Professional-375-M-Bus *)
Example frame_07 : agrees
  (txt "68 F4 F4 68 08 00 72 29 26 03 00 B5 15 10 02 02 00 00 00 0C 78 29 26 03 00 84 10 03 54 05 00 00 84 20 03 00 00 00 00 84 90 40 03 AE 1E 00 00 84 A0 40 03 00 00 00 00 04 AB FF 01 FE FF FF FF 04 AB FF 02 00 00 00 00 04 AB FF 03 00 00 00 00 04 2B FE FF FF FF 84 80 40 AB FF 01 0E 00 00 00 84 80 40 AB FF 02 00 00 00 00 84 80 40 AB FF 03 00 00 00 00 84 80 40 2B 0E 00 00 00 02 FD C8 FF 01 D1 08 02 FD C8 FF 02 00 00 02 FD C8 FF 03 00 00 22 FD C8 FF 01 52 07 22 FD C8 FF 02 00 00 22 FD C8 FF 03 00 00 12 FD C8 FF 01 6A 09 12 FD C8 FF 02 00 00 12 FD C8 FF 03 00 00 03 FD D9 FF 01 BE FF FF 03 FD D9 FF 02 00 00 00 03 FD D9 FF 03 00 00 00 03 FD 59 BE FF FF 01 FF E1 FF 01 0D 01 FF E1 FF 02 00 01 FF E1 FF 03 00 02 FF 52 F4 01 02 FD 60 38 00 01 FD 17 00 74 16
")%list
  (txt "<?xml version=""1.0"" encoding=""ISO-8859-1""?>
<MBusData>

    <SlaveInformation>
        <Id>32629</Id>
        <Manufacturer>EMU</Manufacturer>
        <Version>16</Version>
        <ProductName>EMU Professional 3/75 M-Bus</ProductName>
        <Medium>Electricity</Medium>
        <AccessNumber>2</AccessNumber>
        <Status>00</Status>
        <Signature>0000</Signature>
    </SlaveInformation>

    <DataRecord id=""0"">
        <Function>Instantaneous value</Function>
        <StorageNumber>0</StorageNumber>
        <Unit></Unit>
        <Quantity>Fabrication No</Quantity>
        <Value>32629.000000</Value>
    </DataRecord>

    <DataRecord id=""1"">
        <Function>Instantaneous value</Function>
        <StorageNumber>0</StorageNumber>
        <Tariff>1</Tariff>
        <Device>0</Device>
        <Unit>Wh</Unit>
        <Quantity>Energy</Quantity>
        <Value>1364.000000</Value>
    </DataRecord>

    <DataRecord id=""2"">
        <Function>Instantaneous value</Function>
        <StorageNumber>0</StorageNumber>
        <Tariff>2</Tariff>
        <Device>0</Device>
        <Unit>Wh</Unit>
        <Quantity>Energy</Quantity>
        <Value>0.000000</Value>
    </DataRecord>

    <DataRecord id=""3"">
        <Function>Instantaneous value</Function>
        <StorageNumber>0</StorageNumber>
        <Tariff>1</Tariff>
        <Device>2</Device>
        <Unit>Wh</Unit>
        <Quantity>Energy</Quantity>
        <Value>7854.000000</Value>
    </DataRecord>

    <DataRecord id=""4"">
        <Function>Instantaneous value</Function>
        <StorageNumber>0</StorageNumber>
        <Tariff>2</Tariff>
        <Device>2</Device>
        <Unit>Wh</Unit>
        <Quantity>Energy</Quantity>
        <Value>0.000000</Value>
    </DataRecord>

    <DataRecord id=""5"">
        <Function>Instantaneous value</Function>
        <StorageNumber>0</StorageNumber>
        <Unit>W</Unit>
        <Quantity>Power</Quantity>
        <Value>-2.000000</Value>
    </DataRecord>

    <DataRecord id=""6"">
        <Function>Instantaneous value</Function>
        <StorageNumber>0</StorageNumber>
        <Unit>W</Unit>
        <Quantity>Power</Quantity>
        <Value>0.000000</Value>
    </DataRecord>

    <DataRecord id=""7"">
        <Function>Instantaneous value</Function>
        <StorageNumber>0</StorageNumber>
        <Unit>W</Unit>
        <Quantity>Power</Quantity>
        <Value>0.000000</Value>
    </DataRecord>

    <DataRecord id=""8"">
        <Function>Instantaneous value</Function>
        <StorageNumber>0</StorageNumber>
        <Unit>W</Unit>
        <Quantity>Power</Quantity>
        <Value>-2.000000</Value>
    </DataRecord>

    <DataRecord id=""9"">
        <Function>Instantaneous value</Function>
        <StorageNumber>0</StorageNumber>
        <Tariff>0</Tariff>
        <Device>2</Device>
        <Unit>W</Unit>
        <Quantity>Power</Quantity>
        <Value>14.000000</Value>
    </DataRecord>

    <DataRecord id=""10"">
        <Function>Instantaneous value</Function>
        <StorageNumber>0</StorageNumber>
        <Tariff>0</Tariff>
        <Device>2</Device>
        <Unit>W</Unit>
        <Quantity>Power</Quantity>
        <Value>0.000000</Value>
    </DataRecord>

    <DataRecord id=""11"">
        <Function>Instantaneous value</Function>
        <StorageNumber>0</StorageNumber>
        <Tariff>0</Tariff>
        <Device>2</Device>
        <Unit>W</Unit>
        <Quantity>Power</Quantity>
        <Value>0.000000</Value>
    </DataRecord>

    <DataRecord id=""12"">
        <Function>Instantaneous value</Function>
        <StorageNumber>0</StorageNumber>
        <Tariff>0</Tariff>
        <Device>2</Device>
        <Unit>W</Unit>
        <Quantity>Power</Quantity>
        <Value>14.000000</Value>
    </DataRecord>

    <DataRecord id=""13"">
        <Function>Instantaneous value</Function>
        <StorageNumber>0</StorageNumber>
        <Unit>V</Unit>
        <Quantity>Voltage</Quantity>
        <Value>225.700000</Value>
    </DataRecord>

    <DataRecord id=""14"">
        <Function>Instantaneous value</Function>
        <StorageNumber>0</StorageNumber>
        <Unit>V</Unit>
        <Quantity>Voltage</Quantity>
        <Value>0.000000</Value>
    </DataRecord>

    <DataRecord id=""15"">
        <Function>Instantaneous value</Function>
        <StorageNumber>0</StorageNumber>
        <Unit>V</Unit>
        <Quantity>Voltage</Quantity>
        <Value>0.000000</Value>
    </DataRecord>

    <DataRecord id=""16"">
        <Function>Minimum value</Function>
        <StorageNumber>0</StorageNumber>
        <Unit>V</Unit>
        <Quantity>Voltage</Quantity>
        <Value>187.400000</Value>
    </DataRecord>

    <DataRecord id=""17"">
        <Function>Minimum value</Function>
        <StorageNumber>0</StorageNumber>
        <Unit>V</Unit>
        <Quantity>Voltage</Quantity>
        <Value>0.000000</Value>
    </DataRecord>

    <DataRecord id=""18"">
        <Function>Minimum value</Function>
        <StorageNumber>0</StorageNumber>
        <Unit>V</Unit>
        <Quantity>Voltage</Quantity>
        <Value>0.000000</Value>
    </DataRecord>

    <DataRecord id=""19"">
        <Function>Maximum value</Function>
        <StorageNumber>0</StorageNumber>
        <Unit>V</Unit>
        <Quantity>Voltage</Quantity>
        <Value>241.000000</Value>
    </DataRecord>

    <DataRecord id=""20"">
        <Function>Maximum value</Function>
        <StorageNumber>0</StorageNumber>
        <Unit>V</Unit>
        <Quantity>Voltage</Quantity>
        <Value>0.000000</Value>
    </DataRecord>

    <DataRecord id=""21"">
        <Function>Maximum value</Function>
        <StorageNumber>0</StorageNumber>
        <Unit>V</Unit>
        <Quantity>Voltage</Quantity>
        <Value>0.000000</Value>
    </DataRecord>

    <DataRecord id=""22"">
        <Function>Instantaneous value</Function>
        <StorageNumber>0</StorageNumber>
        <Unit>A</Unit>
        <Quantity>Current</Quantity>
        <Value>-0.066000</Value>
    </DataRecord>

    <DataRecord id=""23"">
        <Function>Instantaneous value</Function>
        <StorageNumber>0</StorageNumber>
        <Unit>A</Unit>
        <Quantity>Current</Quantity>
        <Value>0.000000</Value>
    </DataRecord>

    <DataRecord id=""24"">
        <Function>Instantaneous value</Function>
        <StorageNumber>0</StorageNumber>
        <Unit>A</Unit>
        <Quantity>Current</Quantity>
        <Value>0.000000</Value>
    </DataRecord>

    <DataRecord id=""25"">
        <Function>Instantaneous value</Function>
        <StorageNumber>0</StorageNumber>
        <Unit>A</Unit>
        <Quantity>Current</Quantity>
        <Value>-0.066000</Value>
    </DataRecord>

    <DataRecord id=""26"">
        <Function>Instantaneous value</Function>
        <StorageNumber>0</StorageNumber>
        <Unit></Unit>
        <Quantity>Manufacturer specific</Quantity>
        <Value>13.000000</Value>
    </DataRecord>

    <DataRecord id=""27"">
        <Function>Instantaneous value</Function>
        <StorageNumber>0</StorageNumber>
        <Unit></Unit>
        <Quantity>Manufacturer specific</Quantity>
        <Value>0.000000</Value>
    </DataRecord>

    <DataRecord id=""28"">
        <Function>Instantaneous value</Function>
        <StorageNumber>0</StorageNumber>
        <Unit></Unit>
        <Quantity>Manufacturer specific</Quantity>
        <Value>0.000000</Value>
    </DataRecord>

    <DataRecord id=""29"">
        <Function>Instantaneous value</Function>
        <StorageNumber>0</StorageNumber>
        <Unit></Unit>
        <Quantity>Manufacturer specific</Quantity>
        <Value>500.000000</Value>
    </DataRecord>

    <DataRecord id=""30"">
        <Function>Instantaneous value</Function>
        <StorageNumber>0</StorageNumber>
        <Unit></Unit>
        <Quantity>Reset counter</Quantity>
        <Value>56.000000</Value>
    </DataRecord>

    <DataRecord id=""31"">
        <Function>Instantaneous value</Function>
        <StorageNumber>0</StorageNumber>
        <Unit></Unit>
        <Quantity>Error flags</Quantity>
        <Value>0.000000</Value>
    </DataRecord>

</MBusData>
")%list = (true, true).
Proof. vm_compute. reflexivity. Qed.

(** Elster-F2 *)
Example frame_08 : agrees
  (txt "68 90 90 68 08 01 72 57 26 80 00 CD 4E 08 04 46 00 00 00 04 06 98 14 00 00 04 14 6B D6 01 00 84 40 14 79 66 01 00 02 5B 1C 00 02 5F 22 00 02 62 00 00 04 22 B1 A1 00 00 04 26 B1 A1 00 00 04 3B 00 00 00 00 04 2C 00 00 00 00 04 6D 0C 0C BD 16 84 40 6E 00 00 00 00 84 80 40 6E 00 00 00 00 1F C4 09 01 01 12 00 01 01 01 07 57 26 80 00 CD 4E 08 04 07 A3 FF 03 57 26 80 00 04 04 0D 02 FF 0F 05 3C FF 62 E7 62 96 0A 89 0A 02 00 15 40 17 01 00 00 63 42 DE 16
")%list
  (txt "<?xml version=""1.0"" encoding=""ISO-8859-1""?>
<MBusData>

    <SlaveInformation>
        <Id>802657</Id>
        <Manufacturer>SVM</Manufacturer>
        <Version>8</Version>
        <ProductName>Elster F2 / Deltamess F2</ProductName>
        <Medium>Heat: Outlet</Medium>
        <AccessNumber>70</AccessNumber>
        <Status>00</Status>
        <Signature>0000</Signature>
    </SlaveInformation>

    <DataRecord id=""0"">
        <Function>Instantaneous value</Function>
        <StorageNumber>0</StorageNumber>
        <Unit>Wh</Unit>
        <Quantity>Energy</Quantity>
        <Value>5272000.000000</Value>
    </DataRecord>

    <DataRecord id=""1"">
        <Function>Instantaneous value</Function>
        <StorageNumber>0</StorageNumber>
        <Unit>m^3</Unit>
        <Quantity>Volume</Quantity>
        <Value>1204.270000</Value>
    </DataRecord>

    <DataRecord id=""2"">
        <Function>Instantaneous value</Function>
        <StorageNumber>0</StorageNumber>
        <Tariff>0</Tariff>
        <Device>1</Device>
        <Unit>m^3</Unit>
        <Quantity>Volume</Quantity>
        <Value>917.690000</Value>
    </DataRecord>

    <DataRecord id=""3"">
        <Function>Instantaneous value</Function>
        <StorageNumber>0</StorageNumber>
        <Unit>" ++ [176] ++ txt "C</Unit>
        <Quantity>Flow temperature</Quantity>
        <Value>28.000000</Value>
    </DataRecord>

    <DataRecord id=""4"">
        <Function>Instantaneous value</Function>
        <StorageNumber>0</StorageNumber>
        <Unit>" ++ [176] ++ txt "C</Unit>
        <Quantity>Return temperature</Quantity>
        <Value>34.000000</Value>
    </DataRecord>

    <DataRecord id=""5"">
        <Function>Instantaneous value</Function>
        <StorageNumber>0</StorageNumber>
        <Unit>K</Unit>
        <Quantity>Temperature difference</Quantity>
        <Value>0.000000</Value>
    </DataRecord>

    <DataRecord id=""6"">
        <Function>Instantaneous value</Function>
        <StorageNumber>0</StorageNumber>
        <Unit>s</Unit>
        <Quantity>On time</Quantity>
        <Value>149014800.000000</Value>
    </DataRecord>

    <DataRecord id=""7"">
        <Function>Instantaneous value</Function>
        <StorageNumber>0</StorageNumber>
        <Unit>s</Unit>
        <Quantity>Operating time</Quantity>
        <Value>149014800.000000</Value>
    </DataRecord>

    <DataRecord id=""8"">
        <Function>Instantaneous value</Function>
        <StorageNumber>0</StorageNumber>
        <Unit>m^3/h</Unit>
        <Quantity>Volume flow</Quantity>
        <Value>0.000000</Value>
    </DataRecord>

    <DataRecord id=""9"">
        <Function>Instantaneous value</Function>
        <StorageNumber>0</StorageNumber>
        <Unit>W</Unit>
        <Quantity>Power</Quantity>
        <Value>0.000000</Value>
    </DataRecord>

    <DataRecord id=""10"">
        <Function>Instantaneous value</Function>
        <StorageNumber>0</StorageNumber>
        <Unit>-</Unit>
        <Quantity>Time point (date &amp; time)</Quantity>
        <Value>2013-06-29T12:12:00Z</Value>
    </DataRecord>

    <DataRecord id=""11"">
        <Function>Instantaneous value</Function>
        <StorageNumber>0</StorageNumber>
        <Tariff>0</Tariff>
        <Device>1</Device>
        <Unit>Units for H.C.A.</Unit>
        <Quantity>H.C.A.</Quantity>
        <Value>0.000000</Value>
    </DataRecord>

    <DataRecord id=""12"">
        <Function>Instantaneous value</Function>
        <StorageNumber>0</StorageNumber>
        <Tariff>0</Tariff>
        <Device>2</Device>
        <Unit>Units for H.C.A.</Unit>
        <Quantity>H.C.A.</Quantity>
        <Value>0.000000</Value>
    </DataRecord>

    <DataRecord id=""13"">
        <Function>More records follow</Function>
        <StorageNumber>0</StorageNumber>
        <Unit></Unit>
        <Quantity></Quantity>
        <Value>C4 09 01 01 12 00 01 01 01 07 57 26 80 00 CD 4E 08 04 07 A3 FF 03 57 26 80 00 04 04 0D 02 FF 0F 05 3C FF 62 E7 62 96 0A 89 0A 02 00 15 40 17 01 00 00 63 42</Value>
    </DataRecord>

</MBusData>
")%list = (true, true).
Proof. vm_compute. reflexivity. Qed.

(** FIN-Finder-7E.23.8.230.0020 *)
Example frame_09 : agrees
  (txt "68 38 38 68 08 19 72 07 62 00 23 2E 19 23 02 92 00 00 00 8C 10 04 68 28 17 00 8C 11 04 68 28 17 00 02 FD C9 FF 01 E6 00 02 FD DB FF 01 06 00 02 AC FF 01 09 00 82 40 AC FF 01 FD FF 5B 16
")%list
  (txt "<?xml version=""1.0"" encoding=""ISO-8859-1""?>
<MBusData>

    <SlaveInformation>
        <Id>23006207</Id>
        <Manufacturer>FIN</Manufacturer>
        <Version>35</Version>
        <ProductName></ProductName>
        <Medium>Electricity</Medium>
        <AccessNumber>146</AccessNumber>
        <Status>00</Status>
        <Signature>0000</Signature>
    </SlaveInformation>

    <DataRecord id=""0"">
        <Function>Instantaneous value</Function>
        <StorageNumber>0</StorageNumber>
        <Tariff>1</Tariff>
        <Device>0</Device>
        <Unit>Wh</Unit>
        <Quantity>Energy</Quantity>
        <Value>1728680.000000</Value>
    </DataRecord>

    <DataRecord id=""1"">
        <Function>Instantaneous value</Function>
        <StorageNumber>2</StorageNumber>
        <Tariff>1</Tariff>
        <Device>0</Device>
        <Unit>Wh</Unit>
        <Quantity>Energy</Quantity>
        <Value>1728680.000000</Value>
    </DataRecord>

    <DataRecord id=""2"">
        <Function>Instantaneous value</Function>
        <StorageNumber>0</StorageNumber>
        <Unit>V</Unit>
        <Quantity>Voltage</Quantity>
        <Value>230.000000</Value>
    </DataRecord>

    <DataRecord id=""3"">
        <Function>Instantaneous value</Function>
        <StorageNumber>0</StorageNumber>
        <Unit>A</Unit>
        <Quantity>Current</Quantity>
        <Value>0.600000</Value>
    </DataRecord>

    <DataRecord id=""4"">
        <Function>Instantaneous value</Function>
        <StorageNumber>0</StorageNumber>
        <Unit>W</Unit>
        <Quantity>Power</Quantity>
        <Value>90.000000</Value>
    </DataRecord>

    <DataRecord id=""5"">
        <Function>Instantaneous value</Function>
        <StorageNumber>0</StorageNumber>
        <Tariff>0</Tariff>
        <Device>1</Device>
        <Unit>W</Unit>
        <Quantity>Power</Quantity>
        <Value>-30.000000</Value>
    </DataRecord>

</MBusData>
")%list = (true, true).
Proof. vm_compute. reflexivity. Qed.

(** GWF-MTKcoder *)
Example frame_10 : agrees
  (txt "68 1B 1B 68 08 01 72 07 20 18 00 E6 1E 35 07 4C 00 00 00 0C 78 07 20 18 00 0C 16 69 02 00 00 96 16
")%list
  (txt "<?xml version=""1.0"" encoding=""ISO-8859-1""?>
<MBusData>

    <SlaveInformation>
        <Id>182007</Id>
        <Manufacturer>GWF</Manufacturer>
        <Version>53</Version>
        <ProductName></ProductName>
        <Medium>Water</Medium>
        <AccessNumber>76</AccessNumber>
        <Status>00</Status>
        <Signature>0000</Signature>
    </SlaveInformation>

    <DataRecord id=""0"">
        <Function>Instantaneous value</Function>
        <StorageNumber>0</StorageNumber>
        <Unit></Unit>
        <Quantity>Fabrication No</Quantity>
        <Value>182007.000000</Value>
    </DataRecord>

    <DataRecord id=""1"">
        <Function>Instantaneous value</Function>
        <StorageNumber>0</StorageNumber>
        <Unit>m^3</Unit>
        <Quantity>Volume</Quantity>
        <Value>269.000000</Value>
    </DataRecord>

</MBusData>
")%list = (true, true).
Proof. vm_compute. reflexivity. Qed.

(** LGB_G350 *)
Example frame_11 : agrees
  (txt "68 40 40 68 08 01 72 58 20 08 12 E2 30 40 03 40 00 00 00 2F 2F 4C 13 92 40 83 10 46 6D 00 00 08 16 27 00 0D 78 11 34 31 38 35 30 32 38 30 32 31 39 35 37 31 30 30 47 89 40 FD 1A 01 01 FD 17 00 01 FD 67 0F 38 16
")%list
  (txt "<?xml version=""1.0"" encoding=""ISO-8859-1""?>
<MBusData>

    <SlaveInformation>
        <Id>12082058</Id>
        <Manufacturer>LGB</Manufacturer>
        <Version>64</Version>
        <ProductName></ProductName>
        <Medium>Gas</Medium>
        <AccessNumber>64</AccessNumber>
        <Status>00</Status>
        <Signature>0000</Signature>
    </SlaveInformation>

    <DataRecord id=""0"">
        <Function>Instantaneous value</Function>
        <StorageNumber>1</StorageNumber>
        <Unit>m^3</Unit>
        <Quantity>Volume</Quantity>
        <Value>10834.092000</Value>
    </DataRecord>

    <DataRecord id=""1"">
        <Function>Instantaneous value</Function>
        <StorageNumber>1</StorageNumber>
        <Unit>-</Unit>
        <Quantity>Time point (date &amp; time)</Quantity>
        <Value>2016-07-22T08:00:00Z</Value>
    </DataRecord>

    <DataRecord id=""2"">
        <Function>Instantaneous value</Function>
        <StorageNumber>0</StorageNumber>
        <Unit></Unit>
        <Quantity>Fabrication No</Quantity>
        <Value>G0017591208205814</Value>
    </DataRecord>

    <DataRecord id=""3"">
        <Function>Instantaneous value</Function>
        <StorageNumber>0</StorageNumber>
        <Tariff>0</Tariff>
        <Device>1</Device>
        <Unit></Unit>
        <Quantity>Digital Output</Quantity>
        <Value>1.000000</Value>
    </DataRecord>

    <DataRecord id=""4"">
        <Function>Instantaneous value</Function>
        <StorageNumber>0</StorageNumber>
        <Unit></Unit>
        <Quantity>Error flags</Quantity>
        <Value>0.000000</Value>
    </DataRecord>

    <DataRecord id=""5"">
        <Function>Instantaneous value</Function>
        <StorageNumber>0</StorageNumber>
        <Unit></Unit>
        <Quantity>Special supplier information</Quantity>
        <Value>15.000000</Value>
    </DataRecord>

</MBusData>
")%list = (true, true).
Proof. vm_compute. reflexivity. Qed.

(** REL-Relay-Padpuls2 *)
Example frame_12 : agrees
  (txt "68 2F 2F 68 08 16 72 01 63 21 11 AC 48 41 03 B1 00 00 00 0C 14 81 60 87 02 04 6D A1 15 E9 17 42 6C DF 1C 4C 14 82 73 59 02 42 EC 7E FF 1C 0F C0 01 01 0C BD 16
")%list
  (txt "<?xml version=""1.0"" encoding=""ISO-8859-1""?>
<MBusData>

    <SlaveInformation>
        <Id>11216301</Id>
        <Manufacturer>REL</Manufacturer>
        <Version>65</Version>
        <ProductName></ProductName>
        <Medium>Gas</Medium>
        <AccessNumber>177</AccessNumber>
        <Status>00</Status>
        <Signature>0000</Signature>
    </SlaveInformation>

    <DataRecord id=""0"">
        <Function>Instantaneous value</Function>
        <StorageNumber>0</StorageNumber>
        <Unit>m^3</Unit>
        <Quantity>Volume</Quantity>
        <Value>28760.810000</Value>
    </DataRecord>

    <DataRecord id=""1"">
        <Function>Instantaneous value</Function>
        <StorageNumber>0</StorageNumber>
        <Unit>-</Unit>
        <Quantity>Time point (date &amp; time)</Quantity>
        <Value>1900-01-00T00:00:00Z</Value>
    </DataRecord>

    <DataRecord id=""2"">
        <Function>Instantaneous value</Function>
        <StorageNumber>1</StorageNumber>
        <Unit>-</Unit>
        <Quantity>Time point (date)</Quantity>
        <Value>2014-12-31</Value>
    </DataRecord>

    <DataRecord id=""3"">
        <Function>Instantaneous value</Function>
        <StorageNumber>1</StorageNumber>
        <Unit>m^3</Unit>
        <Quantity>Volume</Quantity>
        <Value>25973.820000</Value>
    </DataRecord>

    <DataRecord id=""4"">
        <Function>Instantaneous value</Function>
        <StorageNumber>1</StorageNumber>
        <Unit>-</Unit>
        <Quantity>Time point (date)</Quantity>
        <Value>2015-12-31</Value>
    </DataRecord>

    <DataRecord id=""5"">
        <Function>Manufacturer specific</Function>
        <StorageNumber>0</StorageNumber>
        <Unit></Unit>
        <Quantity></Quantity>
        <Value>C0 01 01 0C</Value>
    </DataRecord>

</MBusData>
")%list = (true, true).
Proof. vm_compute. reflexivity. Qed.

(** SBC_Saia-Burgess-ALE3 *)
Example frame_13 : agrees
  (txt "68 92 92 68 08 28 72 55 00 00 19 43 4C 16 02 BF 00 00 00 8C 10 04 93 02 00 00 8C 11 04 93 02 00 00 8C 20 04 06 00 00 00 8C 21 04 06 00 00 00 02 FD C9 FF 01 DF 00 02 FD DB FF 01 00 00 02 AC FF 01 00 00 82 40 AC FF 01 00 00 02 FD C9 FF 02 00 00 02 FD DB FF 02 00 00 02 AC FF 02 00 00 82 40 AC FF 02 00 00 02 FD C9 FF 03 00 00 02 FD DB FF 03 00 00 02 AC FF 03 00 00 82 40 AC FF 03 00 00 02 FF 68 00 00 02 AC FF 00 00 00 82 40 AC FF 00 00 00 01 FF 14 00 0A 16
")%list
  (txt "<?xml version=""1.0"" encoding=""ISO-8859-1""?>
<MBusData>

    <SlaveInformation>
        <Id>19000055</Id>
        <Manufacturer>SBC</Manufacturer>
        <Version>22</Version>
        <ProductName>Saia-Burgess ALE3</ProductName>
        <Medium>Electricity</Medium>
        <AccessNumber>191</AccessNumber>
        <Status>00</Status>
        <Signature>0000</Signature>
    </SlaveInformation>

    <DataRecord id=""0"">
        <Function>Instantaneous value</Function>
        <StorageNumber>0</StorageNumber>
        <Tariff>1</Tariff>
        <Device>0</Device>
        <Unit>Wh</Unit>
        <Quantity>Energy</Quantity>
        <Value>2930.000000</Value>
    </DataRecord>

    <DataRecord id=""1"">
        <Function>Instantaneous value</Function>
        <StorageNumber>2</StorageNumber>
        <Tariff>1</Tariff>
        <Device>0</Device>
        <Unit>Wh</Unit>
        <Quantity>Energy</Quantity>
        <Value>2930.000000</Value>
    </DataRecord>

    <DataRecord id=""2"">
        <Function>Instantaneous value</Function>
        <StorageNumber>0</StorageNumber>
        <Tariff>2</Tariff>
        <Device>0</Device>
        <Unit>Wh</Unit>
        <Quantity>Energy</Quantity>
        <Value>60.000000</Value>
    </DataRecord>

    <DataRecord id=""3"">
        <Function>Instantaneous value</Function>
        <StorageNumber>2</StorageNumber>
        <Tariff>2</Tariff>
        <Device>0</Device>
        <Unit>Wh</Unit>
        <Quantity>Energy</Quantity>
        <Value>60.000000</Value>
    </DataRecord>

    <DataRecord id=""4"">
        <Function>Instantaneous value</Function>
        <StorageNumber>0</StorageNumber>
        <Unit>V</Unit>
        <Quantity>Voltage</Quantity>
        <Value>223.000000</Value>
    </DataRecord>

    <DataRecord id=""5"">
        <Function>Instantaneous value</Function>
        <StorageNumber>0</StorageNumber>
        <Unit>A</Unit>
        <Quantity>Current</Quantity>
        <Value>0.000000</Value>
    </DataRecord>

    <DataRecord id=""6"">
        <Function>Instantaneous value</Function>
        <StorageNumber>0</StorageNumber>
        <Unit>W</Unit>
        <Quantity>Power</Quantity>
        <Value>0.000000</Value>
    </DataRecord>

    <DataRecord id=""7"">
        <Function>Instantaneous value</Function>
        <StorageNumber>0</StorageNumber>
        <Tariff>0</Tariff>
        <Device>1</Device>
        <Unit>W</Unit>
        <Quantity>Power</Quantity>
        <Value>0.000000</Value>
    </DataRecord>

    <DataRecord id=""8"">
        <Function>Instantaneous value</Function>
        <StorageNumber>0</StorageNumber>
        <Unit>V</Unit>
        <Quantity>Voltage</Quantity>
        <Value>0.000000</Value>
    </DataRecord>

    <DataRecord id=""9"">
        <Function>Instantaneous value</Function>
        <StorageNumber>0</StorageNumber>
        <Unit>A</Unit>
        <Quantity>Current</Quantity>
        <Value>0.000000</Value>
    </DataRecord>

    <DataRecord id=""10"">
        <Function>Instantaneous value</Function>
        <StorageNumber>0</StorageNumber>
        <Unit>W</Unit>
        <Quantity>Power</Quantity>
        <Value>0.000000</Value>
    </DataRecord>

    <DataRecord id=""11"">
        <Function>Instantaneous value</Function>
        <StorageNumber>0</StorageNumber>
        <Tariff>0</Tariff>
        <Device>1</Device>
        <Unit>W</Unit>
        <Quantity>Power</Quantity>
        <Value>0.000000</Value>
    </DataRecord>

    <DataRecord id=""12"">
        <Function>Instantaneous value</Function>
        <StorageNumber>0</StorageNumber>
        <Unit>V</Unit>
        <Quantity>Voltage</Quantity>
        <Value>0.000000</Value>
    </DataRecord>

    <DataRecord id=""13"">
        <Function>Instantaneous value</Function>
        <StorageNumber>0</StorageNumber>
        <Unit>A</Unit>
        <Quantity>Current</Quantity>
        <Value>0.000000</Value>
    </DataRecord>

    <DataRecord id=""14"">
        <Function>Instantaneous value</Function>
        <StorageNumber>0</StorageNumber>
        <Unit>W</Unit>
        <Quantity>Power</Quantity>
        <Value>0.000000</Value>
    </DataRecord>

    <DataRecord id=""15"">
        <Function>Instantaneous value</Function>
        <StorageNumber>0</StorageNumber>
        <Tariff>0</Tariff>
        <Device>1</Device>
        <Unit>W</Unit>
        <Quantity>Power</Quantity>
        <Value>0.000000</Value>
    </DataRecord>

    <DataRecord id=""16"">
        <Function>Instantaneous value</Function>
        <StorageNumber>0</StorageNumber>
        <Unit></Unit>
        <Quantity>Manufacturer specific</Quantity>
        <Value>0.000000</Value>
    </DataRecord>

    <DataRecord id=""17"">
        <Function>Instantaneous value</Function>
        <StorageNumber>0</StorageNumber>
        <Unit>W</Unit>
        <Quantity>Power</Quantity>
        <Value>0.000000</Value>
    </DataRecord>

    <DataRecord id=""18"">
        <Function>Instantaneous value</Function>
        <StorageNumber>0</StorageNumber>
        <Tariff>0</Tariff>
        <Device>1</Device>
        <Unit>W</Unit>
        <Quantity>Power</Quantity>
        <Value>0.000000</Value>
    </DataRecord>

    <DataRecord id=""19"">
        <Function>Instantaneous value</Function>
        <StorageNumber>0</StorageNumber>
        <Unit></Unit>
        <Quantity>Manufacturer specific</Quantity>
        <Value>0.000000</Value>
    </DataRecord>

</MBusData>
")%list = (true, true).
Proof. vm_compute. reflexivity. Qed.

(** SEN_Pollustat *)
Example frame_14 : agrees
  (txt "68 71 71 68 08 04 72 88 17 01 00 AE 4C 06 0D 3E 00 00 00 04 6D 3B 0E E7 14 34 6D 00 00 01 01 34 FD 17 00 00 00 04 04 20 92 22 F1 00 04 24 A4 1A E7 00 04 86 3B 97 9B 00 00 04 13 BE 09 5E 00 05 2E B1 D1 2E BE 05 3E F5 B8 4E 40 05 5B B8 2D F9 41 05 5F 78 8B F9 41 05 63 00 80 3B BD 04 BE 50 71 BB B0 00 04 BE 58 F4 02 00 00 0C 78 88 17 01 00 02 7F 10 B5 5D 16
")%list
  (txt "<?xml version=""1.0"" encoding=""ISO-8859-1""?>
<MBusData>

    <SlaveInformation>
        <Id>11788</Id>
        <Manufacturer>SEN</Manufacturer>
        <Version>6</Version>
        <ProductName></ProductName>
        <Medium>Heat / Cooling load meter</Medium>
        <AccessNumber>62</AccessNumber>
        <Status>00</Status>
        <Signature>0000</Signature>
    </SlaveInformation>

    <DataRecord id=""0"">
        <Function>Instantaneous value</Function>
        <StorageNumber>0</StorageNumber>
        <Unit>-</Unit>
        <Quantity>Time point (date &amp; time)</Quantity>
        <Value>2015-04-07T14:59:00Z</Value>
    </DataRecord>

    <DataRecord id=""1"">
        <Function>Value during error state</Function>
        <StorageNumber>0</StorageNumber>
        <Unit>-</Unit>
        <Quantity>Time point (date &amp; time)</Quantity>
        <Value>2000-01-01T00:00:00Z</Value>
    </DataRecord>

    <DataRecord id=""2"">
        <Function>Value during error state</Function>
        <StorageNumber>0</StorageNumber>
        <Unit></Unit>
        <Quantity>Error flags</Quantity>
        <Value>67108864.000000</Value>
    </DataRecord>

    <DataRecord id=""3"">
        <Function>Instantaneous value</Function>
        <StorageNumber>0</StorageNumber>
        <Unit>s</Unit>
        <Quantity>On time</Quantity>
        <Value>15803026.000000</Value>
    </DataRecord>

    <DataRecord id=""4"">
        <Function>Instantaneous value</Function>
        <StorageNumber>0</StorageNumber>
        <Unit>s</Unit>
        <Quantity>Operating time</Quantity>
        <Value>15145636.000000</Value>
    </DataRecord>

    <DataRecord id=""5"">
        <Function>Instantaneous value</Function>
        <StorageNumber>0</StorageNumber>
        <Unit>Wh</Unit>
        <Quantity>Energy</Quantity>
        <Value>39831000.000000</Value>
    </DataRecord>

    <DataRecord id=""6"">
        <Function>Instantaneous value</Function>
        <StorageNumber>0</StorageNumber>
        <Unit>m^3</Unit>
        <Quantity>Volume</Quantity>
        <Value>6162.878000</Value>
    </DataRecord>

    <DataRecord id=""7"">
        <Function>Instantaneous value</Function>
        <StorageNumber>0</StorageNumber>
        <Unit>W</Unit>
        <Quantity>Power</Quantity>
        <Value>-170.721784</Value>
    </DataRecord>

    <DataRecord id=""8"">
        <Function>Instantaneous value</Function>
        <StorageNumber>0</StorageNumber>
        <Unit>m^3/h</Unit>
        <Quantity>Volume flow</Quantity>
        <Value>3.230039</Value>
    </DataRecord>

    <DataRecord id=""9"">
        <Function>Instantaneous value</Function>
        <StorageNumber>0</StorageNumber>
        <Unit>" ++ [176] ++ txt "C</Unit>
        <Quantity>Flow temperature</Quantity>
        <Value>31.147324</Value>
    </DataRecord>

    <DataRecord id=""10"">
        <Function>Instantaneous value</Function>
        <StorageNumber>0</StorageNumber>
        <Unit>" ++ [176] ++ txt "C</Unit>
        <Quantity>Return temperature</Quantity>
        <Value>31.193100</Value>
    </DataRecord>

    <DataRecord id=""11"">
        <Function>Instantaneous value</Function>
        <StorageNumber>0</StorageNumber>
        <Unit>K</Unit>
        <Quantity>Temperature difference</Quantity>
        <Value>-0.045776</Value>
    </DataRecord>

    <DataRecord id=""12"">
        <Function>Instantaneous value</Function>
        <StorageNumber>0</StorageNumber>
        <Unit>m^3/h</Unit>
        <Quantity>Volume flow</Quantity>
        <Value>11582321.000000</Value>
    </DataRecord>

    <DataRecord id=""13"">
        <Function>Instantaneous value</Function>
        <StorageNumber>0</StorageNumber>
        <Unit>m^3/h</Unit>
        <Quantity>Volume flow</Quantity>
        <Value>756.000000</Value>
    </DataRecord>

    <DataRecord id=""14"">
        <Function>Instantaneous value</Function>
        <StorageNumber>0</StorageNumber>
        <Unit></Unit>
        <Quantity>Fabrication No</Quantity>
        <Value>11788.000000</Value>
    </DataRecord>

    <DataRecord id=""15"">
        <Function>Instantaneous value</Function>
        <StorageNumber>0</StorageNumber>
        <Unit></Unit>
        <Quantity>Manufacturer specific</Quantity>
        <Value>-19184.000000</Value>
    </DataRecord>

</MBusData>
")%list = (true, true).
Proof. vm_compute. reflexivity. Qed.

(** SEN_Sensus-PolluStat-E *)
Example frame_15 : agrees
  (txt "68 42 42 68 08 00 72 95 50 26 21 AE 4C 0E 04 B5 10 00 00 0C 06 00 00 00 00 0C 13 00 00 00 00 0C 3B 00 00 00 00 0C 2B 00 00 00 00 02 5A C9 00 02 5E CA 00 03 60 00 00 00 0C 78 95 50 26 21 0C FD 10 95 50 26 21 1F EC 16")%list
  (txt "<?xml version=""1.0"" encoding=""ISO-8859-1""?>
<MBusData>

    <SlaveInformation>
        <Id>21265095</Id>
        <Manufacturer>SEN</Manufacturer>
        <Version>14</Version>
        <ProductName>Sensus PolluStat E</ProductName>
        <Medium>Heat: Outlet</Medium>
        <AccessNumber>181</AccessNumber>
        <Status>10</Status>
        <Signature>0000</Signature>
    </SlaveInformation>

    <DataRecord id=""0"">
        <Function>Instantaneous value</Function>
        <StorageNumber>0</StorageNumber>
        <Unit>Wh</Unit>
        <Quantity>Energy</Quantity>
        <Value>0.000000</Value>
    </DataRecord>

    <DataRecord id=""1"">
        <Function>Instantaneous value</Function>
        <StorageNumber>0</StorageNumber>
        <Unit>m^3</Unit>
        <Quantity>Volume</Quantity>
        <Value>0.000000</Value>
    </DataRecord>

    <DataRecord id=""2"">
        <Function>Instantaneous value</Function>
        <StorageNumber>0</StorageNumber>
        <Unit>m^3/h</Unit>
        <Quantity>Volume flow</Quantity>
        <Value>0.000000</Value>
    </DataRecord>

    <DataRecord id=""3"">
        <Function>Instantaneous value</Function>
        <StorageNumber>0</StorageNumber>
        <Unit>W</Unit>
        <Quantity>Power</Quantity>
        <Value>0.000000</Value>
    </DataRecord>

    <DataRecord id=""4"">
        <Function>Instantaneous value</Function>
        <StorageNumber>0</StorageNumber>
        <Unit>" ++ [176] ++ txt "C</Unit>
        <Quantity>Flow temperature</Quantity>
        <Value>20.100000</Value>
    </DataRecord>

    <DataRecord id=""5"">
        <Function>Instantaneous value</Function>
        <StorageNumber>0</StorageNumber>
        <Unit>" ++ [176] ++ txt "C</Unit>
        <Quantity>Return temperature</Quantity>
        <Value>20.200000</Value>
    </DataRecord>

    <DataRecord id=""6"">
        <Function>Instantaneous value</Function>
        <StorageNumber>0</StorageNumber>
        <Unit>K</Unit>
        <Quantity>Temperature difference</Quantity>
        <Value>0.000000</Value>
    </DataRecord>

    <DataRecord id=""7"">
        <Function>Instantaneous value</Function>
        <StorageNumber>0</StorageNumber>
        <Unit></Unit>
        <Quantity>Fabrication No</Quantity>
        <Value>21265095.000000</Value>
    </DataRecord>

    <DataRecord id=""8"">
        <Function>Instantaneous value</Function>
        <StorageNumber>0</StorageNumber>
        <Unit></Unit>
        <Quantity>Customer location</Quantity>
        <Value>21265095.000000</Value>
    </DataRecord>

    <DataRecord id=""9"">
        <Function>More records follow</Function>
        <StorageNumber>0</StorageNumber>
        <Unit></Unit>
        <Quantity></Quantity>
        <Value></Value>
    </DataRecord>

</MBusData>
")%list = (true, true).
Proof. vm_compute. reflexivity. Qed.

(** SEN_Sensus-PolluTherm *)
Example frame_16 : agrees
  (txt "68 41 41 68 08 00 72 89 16 35 24 AE 4C 0B 04 54 10 00 00 0C 07 00 00 00 00 0C 14 00 00 00 00 0C 3C 00 00 00 00 0C 2C 00 00 00 00 32 5A 00 00 32 5E 00 00 33 60 00 00 00 0C 78 89 16 35 24 0C FD 10 89 16 35 24 CE 16")%list
  (txt "<?xml version=""1.0"" encoding=""ISO-8859-1""?>
<MBusData>

    <SlaveInformation>
        <Id>24351689</Id>
        <Manufacturer>SEN</Manufacturer>
        <Version>11</Version>
        <ProductName>Sensus PolluTherm</ProductName>
        <Medium>Heat: Outlet</Medium>
        <AccessNumber>84</AccessNumber>
        <Status>10</Status>
        <Signature>0000</Signature>
    </SlaveInformation>

    <DataRecord id=""0"">
        <Function>Instantaneous value</Function>
        <StorageNumber>0</StorageNumber>
        <Unit>Wh</Unit>
        <Quantity>Energy</Quantity>
        <Value>0.000000</Value>
    </DataRecord>

    <DataRecord id=""1"">
        <Function>Instantaneous value</Function>
        <StorageNumber>0</StorageNumber>
        <Unit>m^3</Unit>
        <Quantity>Volume</Quantity>
        <Value>0.000000</Value>
    </DataRecord>

    <DataRecord id=""2"">
        <Function>Instantaneous value</Function>
        <StorageNumber>0</StorageNumber>
        <Unit>m^3/h</Unit>
        <Quantity>Volume flow</Quantity>
        <Value>0.000000</Value>
    </DataRecord>

    <DataRecord id=""3"">
        <Function>Instantaneous value</Function>
        <StorageNumber>0</StorageNumber>
        <Unit>W</Unit>
        <Quantity>Power</Quantity>
        <Value>0.000000</Value>
    </DataRecord>

    <DataRecord id=""4"">
        <Function>Value during error state</Function>
        <StorageNumber>0</StorageNumber>
        <Unit>" ++ [176] ++ txt "C</Unit>
        <Quantity>Flow temperature</Quantity>
        <Value>0.000000</Value>
    </DataRecord>

    <DataRecord id=""5"">
        <Function>Value during error state</Function>
        <StorageNumber>0</StorageNumber>
        <Unit>" ++ [176] ++ txt "C</Unit>
        <Quantity>Return temperature</Quantity>
        <Value>0.000000</Value>
    </DataRecord>

    <DataRecord id=""6"">
        <Function>Value during error state</Function>
        <StorageNumber>0</StorageNumber>
        <Unit>K</Unit>
        <Quantity>Temperature difference</Quantity>
        <Value>0.000000</Value>
    </DataRecord>

    <DataRecord id=""7"">
        <Function>Instantaneous value</Function>
        <StorageNumber>0</StorageNumber>
        <Unit></Unit>
        <Quantity>Fabrication No</Quantity>
        <Value>24351689.000000</Value>
    </DataRecord>

    <DataRecord id=""8"">
        <Function>Instantaneous value</Function>
        <StorageNumber>0</StorageNumber>
        <Unit></Unit>
        <Quantity>Customer location</Quantity>
        <Value>24351689.000000</Value>
    </DataRecord>

</MBusData>
")%list = (true, true).
Proof. vm_compute. reflexivity. Qed.

(** SLB_CF-Compact-Integral-MK-MaXX *)
Example frame_17 : agrees
  (txt "68 5C 5C 68 08 04 72 14 73 81 11 82 4D 06 04 03 00 00 00 0C 78 14 73 81 11 0C 06 00 00 00 00 0C 14 02 00 00 00 0A 3B 00 00 0B 5A 18 02 00 0B 5E 20 02 00 0B 61 18 00 F0 32 26 00 00 02 27 98 04 04 6D 02 0E CD 13 84 40 14 7B 00 00 00 84 80 40 14 41 01 00 00 09 FD 0E 03 09 FD 0F 18 0F 00 16 DB 16")%list
  (txt "<?xml version=""1.0"" encoding=""ISO-8859-1""?>
<MBusData>

    <SlaveInformation>
        <Id>11817314</Id>
        <Manufacturer>SLB</Manufacturer>
        <Version>6</Version>
        <ProductName>CF Compact / Integral MK MaXX</ProductName>
        <Medium>Heat: Outlet</Medium>
        <AccessNumber>3</AccessNumber>
        <Status>00</Status>
        <Signature>0000</Signature>
    </SlaveInformation>

    <DataRecord id=""0"">
        <Function>Instantaneous value</Function>
        <StorageNumber>0</StorageNumber>
        <Unit></Unit>
        <Quantity>Fabrication No</Quantity>
        <Value>11817314.000000</Value>
    </DataRecord>

    <DataRecord id=""1"">
        <Function>Instantaneous value</Function>
        <StorageNumber>0</StorageNumber>
        <Unit>Wh</Unit>
        <Quantity>Energy</Quantity>
        <Value>0.000000</Value>
    </DataRecord>

    <DataRecord id=""2"">
        <Function>Instantaneous value</Function>
        <StorageNumber>0</StorageNumber>
        <Unit>m^3</Unit>
        <Quantity>Volume</Quantity>
        <Value>0.020000</Value>
    </DataRecord>

    <DataRecord id=""3"">
        <Function>Instantaneous value</Function>
        <StorageNumber>0</StorageNumber>
        <Unit>m^3/h</Unit>
        <Quantity>Volume flow</Quantity>
        <Value>0.000000</Value>
    </DataRecord>

    <DataRecord id=""4"">
        <Function>Instantaneous value</Function>
        <StorageNumber>0</StorageNumber>
        <Unit>" ++ [176] ++ txt "C</Unit>
        <Quantity>Flow temperature</Quantity>
        <Value>21.800000</Value>
    </DataRecord>

    <DataRecord id=""5"">
        <Function>Instantaneous value</Function>
        <StorageNumber>0</StorageNumber>
        <Unit>" ++ [176] ++ txt "C</Unit>
        <Quantity>Return temperature</Quantity>
        <Value>22.000000</Value>
    </DataRecord>

    <DataRecord id=""6"">
        <Function>Instantaneous value</Function>
        <StorageNumber>0</StorageNumber>
        <Unit>K</Unit>
        <Quantity>Temperature difference</Quantity>
        <Value>-0.180000</Value>
    </DataRecord>

    <DataRecord id=""7"">
        <Function>Value during error state</Function>
        <StorageNumber>0</StorageNumber>
        <Unit>s</Unit>
        <Quantity>Operating time</Quantity>
        <Value>0.000000</Value>
    </DataRecord>

    <DataRecord id=""8"">
        <Function>Instantaneous value</Function>
        <StorageNumber>0</StorageNumber>
        <Unit>s</Unit>
        <Quantity>Operating time</Quantity>
        <Value>101606400.000000</Value>
    </DataRecord>

    <DataRecord id=""9"">
        <Function>Instantaneous value</Function>
        <StorageNumber>0</StorageNumber>
        <Unit>-</Unit>
        <Quantity>Time point (date &amp; time)</Quantity>
        <Value>2014-03-13T14:02:00Z</Value>
    </DataRecord>

    <DataRecord id=""10"">
        <Function>Instantaneous value</Function>
        <StorageNumber>0</StorageNumber>
        <Tariff>0</Tariff>
        <Device>1</Device>
        <Unit>m^3</Unit>
        <Quantity>Volume</Quantity>
        <Value>1.230000</Value>
    </DataRecord>

    <DataRecord id=""11"">
        <Function>Instantaneous value</Function>
        <StorageNumber>0</StorageNumber>
        <Tariff>0</Tariff>
        <Device>2</Device>
        <Unit>m^3</Unit>
        <Quantity>Volume</Quantity>
        <Value>3.210000</Value>
    </DataRecord>

    <DataRecord id=""12"">
        <Function>Instantaneous value</Function>
        <StorageNumber>0</StorageNumber>
        <Unit></Unit>
        <Quantity>Firmware version</Quantity>
        <Value>3.000000</Value>
    </DataRecord>

    <DataRecord id=""13"">
        <Function>Instantaneous value</Function>
        <StorageNumber>0</StorageNumber>
        <Unit></Unit>
        <Quantity>Software version</Quantity>
        <Value>18.000000</Value>
    </DataRecord>

    <DataRecord id=""14"">
        <Function>Manufacturer specific</Function>
        <StorageNumber>0</StorageNumber>
        <Unit></Unit>
        <Quantity></Quantity>
        <Value>00 16</Value>
    </DataRecord>

</MBusData>
")%list = (false, false).
Proof. vm_compute. reflexivity. Qed.

(** THI_cma10 *)
Example frame_18 : agrees
  (txt "68 52 52 68 08 E6 72 02 00 00 00 96 15 15 00 0D 00 00 00 01 FD 1B 02 02 FC 03 48 52 25 74 34 12 22 FC 03 48 52 25 74 C6 0E 12 FC 03 48 52 25 74 02 14 02 65 D6 08 22 65 CA 08 12 65 16 09 01 72 00 72 65 00 00 B2 01 65 00 00 0C 78 02 00 00 00 02 FD 0F 04 03 1F 96 16")%list
  (txt "<?xml version=""1.0"" encoding=""ISO-8859-1""?>
<MBusData>

    <SlaveInformation>
        <Id>2</Id>
        <Manufacturer>ELV</Manufacturer>
        <Version>21</Version>
        <ProductName>Elvaco CMa10</ProductName>
        <Medium>Other</Medium>
        <AccessNumber>13</AccessNumber>
        <Status>00</Status>
        <Signature>0000</Signature>
    </SlaveInformation>

    <DataRecord id=""0"">
        <Function>Instantaneous value</Function>
        <StorageNumber>0</StorageNumber>
        <Unit></Unit>
        <Quantity>Digital Input</Quantity>
        <Value>2.000000</Value>
    </DataRecord>

    <DataRecord id=""1"">
        <Function>Instantaneous value</Function>
        <StorageNumber>0</StorageNumber>
        <Unit>-</Unit>
        <Quantity>%RH</Quantity>
        <Value>46.600000</Value>
    </DataRecord>

    <DataRecord id=""2"">
        <Function>Minimum value</Function>
        <StorageNumber>0</StorageNumber>
        <Unit>-</Unit>
        <Quantity>%RH</Quantity>
        <Value>37.820000</Value>
    </DataRecord>

    <DataRecord id=""3"">
        <Function>Maximum value</Function>
        <StorageNumber>0</StorageNumber>
        <Unit>-</Unit>
        <Quantity>%RH</Quantity>
        <Value>51.220000</Value>
    </DataRecord>

    <DataRecord id=""4"">
        <Function>Instantaneous value</Function>
        <StorageNumber>0</StorageNumber>
        <Unit>" ++ [176] ++ txt "C</Unit>
        <Quantity>External temperature</Quantity>
        <Value>22.620000</Value>
    </DataRecord>

    <DataRecord id=""5"">
        <Function>Minimum value</Function>
        <StorageNumber>0</StorageNumber>
        <Unit>" ++ [176] ++ txt "C</Unit>
        <Quantity>External temperature</Quantity>
        <Value>22.500000</Value>
    </DataRecord>

    <DataRecord id=""6"">
        <Function>Maximum value</Function>
        <StorageNumber>0</StorageNumber>
        <Unit>" ++ [176] ++ txt "C</Unit>
        <Quantity>External temperature</Quantity>
        <Value>23.260000</Value>
    </DataRecord>

    <DataRecord id=""7"">
        <Function>Instantaneous value</Function>
        <StorageNumber>0</StorageNumber>
        <Unit>s</Unit>
        <Quantity>Averaging Duration</Quantity>
        <Value>0.000000</Value>
    </DataRecord>

    <DataRecord id=""8"">
        <Function>Value during error state</Function>
        <StorageNumber>1</StorageNumber>
        <Unit>" ++ [176] ++ txt "C</Unit>
        <Quantity>External temperature</Quantity>
        <Value>0.000000</Value>
    </DataRecord>

    <DataRecord id=""9"">
        <Function>Value during error state</Function>
        <StorageNumber>2</StorageNumber>
        <Tariff>0</Tariff>
        <Device>0</Device>
        <Unit>" ++ [176] ++ txt "C</Unit>
        <Quantity>External temperature</Quantity>
        <Value>0.000000</Value>
    </DataRecord>

    <DataRecord id=""10"">
        <Function>Instantaneous value</Function>
        <StorageNumber>0</StorageNumber>
        <Unit></Unit>
        <Quantity>Fabrication No</Quantity>
        <Value>2.000000</Value>
    </DataRecord>

    <DataRecord id=""11"">
        <Function>Instantaneous value</Function>
        <StorageNumber>0</StorageNumber>
        <Unit></Unit>
        <Quantity>Software version</Quantity>
        <Value>772.000000</Value>
    </DataRecord>

    <DataRecord id=""12"">
        <Function>More records follow</Function>
        <StorageNumber>0</StorageNumber>
        <Unit></Unit>
        <Quantity></Quantity>
        <Value></Value>
    </DataRecord>

</MBusData>
")%list = (false, true).
Proof. vm_compute. reflexivity. Qed.

(** ZRM_Minol-Minocal-C2 *)
Example frame_19 : agrees
  (txt "68 EF EF 68 08 02 72 84 50 42 31 4D 6A 81 04 73 27 00 00 04 06 03 00 00 00 02 FD 17 00 00 84 04 6D 00 00 E1 11 84 04 06 03 00 00 00 84 05 06 03 00 00 00 04 13 4A 00 00 00 04 3B 00 00 00 00 54 3B 2B 00 00 00 54 6D 1E 08 61 19 04 2D 00 00 00 00 94 01 2D 14 00 00 00 94 01 6D 1E 08 61 19 02 59 17 08 02 5D F6 07 04 6D 2D 0C CD 13 82 80 01 6C C1 13 84 80 01 06 03 00 00 00 C2 80 01 6C C1 12 C4 80 01 06 03 00 00 00 82 81 01 6C C1 11 84 81 01 06 03 00 00 00 C2 81 01 6C A1 1C C4 81 01 06 03 00 00 00 82 82 01 6C A1 1B 84 82 01 06 03 00 00 00 C2 82 01 6C A1 1A C4 82 01 06 03 00 00 00 82 83 01 6C A1 19 84 83 01 06 03 00 00 00 C2 83 01 6C A1 18 C4 83 01 06 03 00 00 00 92 80 01 6C C1 13 94 80 01 3B 00 00 00 00 94 80 01 2D 00 00 00 00 8F 16")%list
  (txt "<?xml version=""1.0"" encoding=""ISO-8859-1""?>
<MBusData>

    <SlaveInformation>
        <Id>31425084</Id>
        <Manufacturer>ZRM</Manufacturer>
        <Version>129</Version>
        <ProductName>Minol Minocal C2</ProductName>
        <Medium>Heat: Outlet</Medium>
        <AccessNumber>115</AccessNumber>
        <Status>27</Status>
        <Signature>0000</Signature>
    </SlaveInformation>

    <DataRecord id=""0"">
        <Function>Instantaneous value</Function>
        <StorageNumber>0</StorageNumber>
        <Unit>Wh</Unit>
        <Quantity>Energy</Quantity>
        <Value>3000.000000</Value>
    </DataRecord>

    <DataRecord id=""1"">
        <Function>Instantaneous value</Function>
        <StorageNumber>0</StorageNumber>
        <Unit></Unit>
        <Quantity>Error flags</Quantity>
        <Value>0.000000</Value>
    </DataRecord>

    <DataRecord id=""2"">
        <Function>Instantaneous value</Function>
        <StorageNumber>8</StorageNumber>
        <Tariff>0</Tariff>
        <Device>0</Device>
        <Unit>-</Unit>
        <Quantity>Time point (date &amp; time)</Quantity>
        <Value>2015-01-01T00:00:00Z</Value>
    </DataRecord>

    <DataRecord id=""3"">
        <Function>Instantaneous value</Function>
        <StorageNumber>8</StorageNumber>
        <Tariff>0</Tariff>
        <Device>0</Device>
        <Unit>Wh</Unit>
        <Quantity>Energy</Quantity>
        <Value>3000.000000</Value>
    </DataRecord>

    <DataRecord id=""4"">
        <Function>Instantaneous value</Function>
        <StorageNumber>10</StorageNumber>
        <Tariff>0</Tariff>
        <Device>0</Device>
        <Unit>Wh</Unit>
        <Quantity>Energy</Quantity>
        <Value>3000.000000</Value>
    </DataRecord>

    <DataRecord id=""5"">
        <Function>Instantaneous value</Function>
        <StorageNumber>0</StorageNumber>
        <Unit>m^3</Unit>
        <Quantity>Volume</Quantity>
        <Value>0.074000</Value>
    </DataRecord>

    <DataRecord id=""6"">
        <Function>Instantaneous value</Function>
        <StorageNumber>0</StorageNumber>
        <Unit>m^3/h</Unit>
        <Quantity>Volume flow</Quantity>
        <Value>0.000000</Value>
    </DataRecord>

    <DataRecord id=""7"">
        <Function>Maximum value</Function>
        <StorageNumber>1</StorageNumber>
        <Unit>m^3/h</Unit>
        <Quantity>Volume flow</Quantity>
        <Value>0.043000</Value>
    </DataRecord>

    <DataRecord id=""8"">
        <Function>Maximum value</Function>
        <StorageNumber>1</StorageNumber>
        <Unit>-</Unit>
        <Quantity>Time point (date &amp; time)</Quantity>
        <Value>2011-09-01T08:30:00Z</Value>
    </DataRecord>

    <DataRecord id=""9"">
        <Function>Instantaneous value</Function>
        <StorageNumber>0</StorageNumber>
        <Unit>W</Unit>
        <Quantity>Power</Quantity>
        <Value>0.000000</Value>
    </DataRecord>

    <DataRecord id=""10"">
        <Function>Maximum value</Function>
        <StorageNumber>2</StorageNumber>
        <Tariff>0</Tariff>
        <Device>0</Device>
        <Unit>W</Unit>
        <Quantity>Power</Quantity>
        <Value>2000.000000</Value>
    </DataRecord>

    <DataRecord id=""11"">
        <Function>Maximum value</Function>
        <StorageNumber>2</StorageNumber>
        <Tariff>0</Tariff>
        <Device>0</Device>
        <Unit>-</Unit>
        <Quantity>Time point (date &amp; time)</Quantity>
        <Value>2011-09-01T08:30:00Z</Value>
    </DataRecord>

    <DataRecord id=""12"">
        <Function>Instantaneous value</Function>
        <StorageNumber>0</StorageNumber>
        <Unit>" ++ [176] ++ txt "C</Unit>
        <Quantity>Flow temperature</Quantity>
        <Value>20.710000</Value>
    </DataRecord>

    <DataRecord id=""13"">
        <Function>Instantaneous value</Function>
        <StorageNumber>0</StorageNumber>
        <Unit>" ++ [176] ++ txt "C</Unit>
        <Quantity>Return temperature</Quantity>
        <Value>20.380000</Value>
    </DataRecord>

    <DataRecord id=""14"">
        <Function>Instantaneous value</Function>
        <StorageNumber>0</StorageNumber>
        <Unit>-</Unit>
        <Quantity>Time point (date &amp; time)</Quantity>
        <Value>2014-03-13T12:45:00Z</Value>
    </DataRecord>

    <DataRecord id=""15"">
        <Function>Instantaneous value</Function>
        <StorageNumber>32</StorageNumber>
        <Tariff>0</Tariff>
        <Device>0</Device>
        <Unit>-</Unit>
        <Quantity>Time point (date)</Quantity>
        <Value>2014-03-01</Value>
    </DataRecord>

    <DataRecord id=""16"">
        <Function>Instantaneous value</Function>
        <StorageNumber>32</StorageNumber>
        <Tariff>0</Tariff>
        <Device>0</Device>
        <Unit>Wh</Unit>
        <Quantity>Energy</Quantity>
        <Value>3000.000000</Value>
    </DataRecord>

    <DataRecord id=""17"">
        <Function>Instantaneous value</Function>
        <StorageNumber>33</StorageNumber>
        <Tariff>0</Tariff>
        <Device>0</Device>
        <Unit>-</Unit>
        <Quantity>Time point (date)</Quantity>
        <Value>2014-02-01</Value>
    </DataRecord>

    <DataRecord id=""18"">
        <Function>Instantaneous value</Function>
        <StorageNumber>33</StorageNumber>
        <Tariff>0</Tariff>
        <Device>0</Device>
        <Unit>Wh</Unit>
        <Quantity>Energy</Quantity>
        <Value>3000.000000</Value>
    </DataRecord>

    <DataRecord id=""19"">
        <Function>Instantaneous value</Function>
        <StorageNumber>34</StorageNumber>
        <Tariff>0</Tariff>
        <Device>0</Device>
        <Unit>-</Unit>
        <Quantity>Time point (date)</Quantity>
        <Value>2014-01-01</Value>
    </DataRecord>

    <DataRecord id=""20"">
        <Function>Instantaneous value</Function>
        <StorageNumber>34</StorageNumber>
        <Tariff>0</Tariff>
        <Device>0</Device>
        <Unit>Wh</Unit>
        <Quantity>Energy</Quantity>
        <Value>3000.000000</Value>
    </DataRecord>

    <DataRecord id=""21"">
        <Function>Instantaneous value</Function>
        <StorageNumber>35</StorageNumber>
        <Tariff>0</Tariff>
        <Device>0</Device>
        <Unit>-</Unit>
        <Quantity>Time point (date)</Quantity>
        <Value>2013-12-01</Value>
    </DataRecord>

    <DataRecord id=""22"">
        <Function>Instantaneous value</Function>
        <StorageNumber>35</StorageNumber>
        <Tariff>0</Tariff>
        <Device>0</Device>
        <Unit>Wh</Unit>
        <Quantity>Energy</Quantity>
        <Value>3000.000000</Value>
    </DataRecord>

    <DataRecord id=""23"">
        <Function>Instantaneous value</Function>
        <StorageNumber>36</StorageNumber>
        <Tariff>0</Tariff>
        <Device>0</Device>
        <Unit>-</Unit>
        <Quantity>Time point (date)</Quantity>
        <Value>2013-11-01</Value>
    </DataRecord>

    <DataRecord id=""24"">
        <Function>Instantaneous value</Function>
        <StorageNumber>36</StorageNumber>
        <Tariff>0</Tariff>
        <Device>0</Device>
        <Unit>Wh</Unit>
        <Quantity>Energy</Quantity>
        <Value>3000.000000</Value>
    </DataRecord>

    <DataRecord id=""25"">
        <Function>Instantaneous value</Function>
        <StorageNumber>37</StorageNumber>
        <Tariff>0</Tariff>
        <Device>0</Device>
        <Unit>-</Unit>
        <Quantity>Time point (date)</Quantity>
        <Value>2013-10-01</Value>
    </DataRecord>

    <DataRecord id=""26"">
        <Function>Instantaneous value</Function>
        <StorageNumber>37</StorageNumber>
        <Tariff>0</Tariff>
        <Device>0</Device>
        <Unit>Wh</Unit>
        <Quantity>Energy</Quantity>
        <Value>3000.000000</Value>
    </DataRecord>

    <DataRecord id=""27"">
        <Function>Instantaneous value</Function>
        <StorageNumber>38</StorageNumber>
        <Tariff>0</Tariff>
        <Device>0</Device>
        <Unit>-</Unit>
        <Quantity>Time point (date)</Quantity>
        <Value>2013-09-01</Value>
    </DataRecord>

    <DataRecord id=""28"">
        <Function>Instantaneous value</Function>
        <StorageNumber>38</StorageNumber>
        <Tariff>0</Tariff>
        <Device>0</Device>
        <Unit>Wh</Unit>
        <Quantity>Energy</Quantity>
        <Value>3000.000000</Value>
    </DataRecord>

    <DataRecord id=""29"">
        <Function>Instantaneous value</Function>
        <StorageNumber>39</StorageNumber>
        <Tariff>0</Tariff>
        <Device>0</Device>
        <Unit>-</Unit>
        <Quantity>Time point (date)</Quantity>
        <Value>2013-08-01</Value>
    </DataRecord>

    <DataRecord id=""30"">
        <Function>Instantaneous value</Function>
        <StorageNumber>39</StorageNumber>
        <Tariff>0</Tariff>
        <Device>0</Device>
        <Unit>Wh</Unit>
        <Quantity>Energy</Quantity>
        <Value>3000.000000</Value>
    </DataRecord>

    <DataRecord id=""31"">
        <Function>Maximum value</Function>
        <StorageNumber>32</StorageNumber>
        <Tariff>0</Tariff>
        <Device>0</Device>
        <Unit>-</Unit>
        <Quantity>Time point (date)</Quantity>
        <Value>2014-03-01</Value>
    </DataRecord>

    <DataRecord id=""32"">
        <Function>Maximum value</Function>
        <StorageNumber>32</StorageNumber>
        <Tariff>0</Tariff>
        <Device>0</Device>
        <Unit>m^3/h</Unit>
        <Quantity>Volume flow</Quantity>
        <Value>0.000000</Value>
    </DataRecord>

    <DataRecord id=""33"">
        <Function>Maximum value</Function>
        <StorageNumber>32</StorageNumber>
        <Tariff>0</Tariff>
        <Device>0</Device>
        <Unit>W</Unit>
        <Quantity>Power</Quantity>
        <Value>0.000000</Value>
    </DataRecord>

</MBusData>
")%list = (true, true).
Proof. vm_compute. reflexivity. Qed.

(** abb_delta *)
Example frame_20 : agrees
  (txt "68 98 98 68 08 01 72 12 34 56 78 42 04 02 02 45 00 00 00 0E 84 00 00 00 00 00 00 00 8E 10 84 00 00 00 00 00 00 00 8E 20 84 00 00 00 00 00 00 00 8E B0 00 84 00 00 00 00 00 00 00 8E 80 10 84 00 00 00 00 00 00 00 8E 80 40 84 00 00 00 00 00 00 00 8E 90 40 84 00 00 00 00 00 00 00 8E A0 40 84 00 00 00 00 00 00 00 8E B0 40 84 00 00 00 00 00 00 00 8E 80 50 84 00 00 00 00 00 00 00 01 FF 93 00 00 0C FF 92 00 00 00 00 01 07 FD 97 00 00 00 00 00 00 00 00 00 01 FF 98 00 00 1F 75 16
")%list
  (txt "<?xml version=""1.0"" encoding=""ISO-8859-1""?>
<MBusData>

    <SlaveInformation>
        <Id>78563412</Id>
        <Manufacturer>ABB</Manufacturer>
        <Version>2</Version>
        <ProductName>ABB Delta-Meter</ProductName>
        <Medium>Electricity</Medium>
        <AccessNumber>69</AccessNumber>
        <Status>00</Status>
        <Signature>0000</Signature>
    </SlaveInformation>

    <DataRecord id=""0"">
        <Function>Instantaneous value</Function>
        <StorageNumber>0</StorageNumber>
        <Unit>Wh</Unit>
        <Quantity>Energy</Quantity>
        <Value>0.000000</Value>
    </DataRecord>

    <DataRecord id=""1"">
        <Function>Instantaneous value</Function>
        <StorageNumber>0</StorageNumber>
        <Tariff>1</Tariff>
        <Device>0</Device>
        <Unit>Wh</Unit>
        <Quantity>Energy</Quantity>
        <Value>0.000000</Value>
    </DataRecord>

    <DataRecord id=""2"">
        <Function>Instantaneous value</Function>
        <StorageNumber>0</StorageNumber>
        <Tariff>2</Tariff>
        <Device>0</Device>
        <Unit>Wh</Unit>
        <Quantity>Energy</Quantity>
        <Value>0.000000</Value>
    </DataRecord>

    <DataRecord id=""3"">
        <Function>Instantaneous value</Function>
        <StorageNumber>0</StorageNumber>
        <Tariff>3</Tariff>
        <Device>0</Device>
        <Unit>Wh</Unit>
        <Quantity>Energy</Quantity>
        <Value>0.000000</Value>
    </DataRecord>

    <DataRecord id=""4"">
        <Function>Instantaneous value</Function>
        <StorageNumber>0</StorageNumber>
        <Tariff>4</Tariff>
        <Device>0</Device>
        <Unit>Wh</Unit>
        <Quantity>Energy</Quantity>
        <Value>0.000000</Value>
    </DataRecord>

    <DataRecord id=""5"">
        <Function>Instantaneous value</Function>
        <StorageNumber>0</StorageNumber>
        <Tariff>0</Tariff>
        <Device>2</Device>
        <Unit>Wh</Unit>
        <Quantity>Energy</Quantity>
        <Value>0.000000</Value>
    </DataRecord>

    <DataRecord id=""6"">
        <Function>Instantaneous value</Function>
        <StorageNumber>0</StorageNumber>
        <Tariff>1</Tariff>
        <Device>2</Device>
        <Unit>Wh</Unit>
        <Quantity>Energy</Quantity>
        <Value>0.000000</Value>
    </DataRecord>

    <DataRecord id=""7"">
        <Function>Instantaneous value</Function>
        <StorageNumber>0</StorageNumber>
        <Tariff>2</Tariff>
        <Device>2</Device>
        <Unit>Wh</Unit>
        <Quantity>Energy</Quantity>
        <Value>0.000000</Value>
    </DataRecord>

    <DataRecord id=""8"">
        <Function>Instantaneous value</Function>
        <StorageNumber>0</StorageNumber>
        <Tariff>3</Tariff>
        <Device>2</Device>
        <Unit>Wh</Unit>
        <Quantity>Energy</Quantity>
        <Value>0.000000</Value>
    </DataRecord>

    <DataRecord id=""9"">
        <Function>Instantaneous value</Function>
        <StorageNumber>0</StorageNumber>
        <Tariff>4</Tariff>
        <Device>2</Device>
        <Unit>Wh</Unit>
        <Quantity>Energy</Quantity>
        <Value>0.000000</Value>
    </DataRecord>

    <DataRecord id=""10"">
        <Function>Instantaneous value</Function>
        <StorageNumber>0</StorageNumber>
        <Unit></Unit>
        <Quantity>Manufacturer specific</Quantity>
        <Value>0.000000</Value>
    </DataRecord>

    <DataRecord id=""11"">
        <Function>Instantaneous value</Function>
        <StorageNumber>0</StorageNumber>
        <Unit></Unit>
        <Quantity>Manufacturer specific</Quantity>
        <Value>1000000.000000</Value>
    </DataRecord>

    <DataRecord id=""12"">
        <Function>Instantaneous value</Function>
        <StorageNumber>0</StorageNumber>
        <Unit></Unit>
        <Quantity>Error flags</Quantity>
        <Value>0.000000</Value>
    </DataRecord>

    <DataRecord id=""13"">
        <Function>Instantaneous value</Function>
        <StorageNumber>0</StorageNumber>
        <Unit></Unit>
        <Quantity>Manufacturer specific</Quantity>
        <Value>0.000000</Value>
    </DataRecord>

    <DataRecord id=""14"">
        <Function>More records follow</Function>
        <StorageNumber>0</StorageNumber>
        <Unit></Unit>
        <Quantity></Quantity>
        <Value></Value>
    </DataRecord>

</MBusData>
")%list = (true, true).
Proof. vm_compute. reflexivity. Qed.

(** abb_f95 *)
Example frame_21 : agrees
  (txt "68 5E 5E 68 08 00 72 90 85 71 26 24 23 28 04 73 50 00 00 0C 05 00 00 00 00 0C 12 42 07 00 00 3C 2A DD B4 EB DD 3B 3A DD B4 EB 0A 5A 04 02 0A 5E 04 02 0A 62 00 00 04 6D 22 10 8D 11 4C 05 00 00 00 00 44 6D 3B 17 7E 14 44 ED 7E 3B 17 9E 14 8C 01 05 00 00 00 00 84 01 6D 3B 17 7F 1C 0B 26 53 65 08 04 16
")%list
  (txt "<?xml version=""1.0"" encoding=""ISO-8859-1""?>
<MBusData>

    <SlaveInformation>
        <Id>26718590</Id>
        <Manufacturer>HYD</Manufacturer>
        <Version>40</Version>
        <ProductName>ABB F95 Typ US770</ProductName>
        <Medium>Heat: Outlet</Medium>
        <AccessNumber>115</AccessNumber>
        <Status>50</Status>
        <Signature>0000</Signature>
    </SlaveInformation>

    <DataRecord id=""0"">
        <Function>Instantaneous value</Function>
        <StorageNumber>0</StorageNumber>
        <Unit>Wh</Unit>
        <Quantity>Energy</Quantity>
        <Value>0.000000</Value>
    </DataRecord>

    <DataRecord id=""1"">
        <Function>Instantaneous value</Function>
        <StorageNumber>0</StorageNumber>
        <Unit>m^3</Unit>
        <Quantity>Volume</Quantity>
        <Value>0.074200</Value>
    </DataRecord>

    <DataRecord id=""2"">
        <Function>Value during error state</Function>
        <StorageNumber>0</StorageNumber>
        <Unit>W</Unit>
        <Quantity>Power</Quantity>
        <Value>1311041.300000</Value>
    </DataRecord>

    <DataRecord id=""3"">
        <Function>Value during error state</Function>
        <StorageNumber>0</StorageNumber>
        <Unit>m^3/h</Unit>
        <Quantity>Volume flow</Quantity>
        <Value>11.041300</Value>
    </DataRecord>

    <DataRecord id=""4"">
        <Function>Instantaneous value</Function>
        <StorageNumber>0</StorageNumber>
        <Unit>" ++ [176] ++ txt "C</Unit>
        <Quantity>Flow temperature</Quantity>
        <Value>20.400000</Value>
    </DataRecord>

    <DataRecord id=""5"">
        <Function>Instantaneous value</Function>
        <StorageNumber>0</StorageNumber>
        <Unit>" ++ [176] ++ txt "C</Unit>
        <Quantity>Return temperature</Quantity>
        <Value>20.400000</Value>
    </DataRecord>

    <DataRecord id=""6"">
        <Function>Instantaneous value</Function>
        <StorageNumber>0</StorageNumber>
        <Unit>K</Unit>
        <Quantity>Temperature difference</Quantity>
        <Value>0.000000</Value>
    </DataRecord>

    <DataRecord id=""7"">
        <Function>Instantaneous value</Function>
        <StorageNumber>0</StorageNumber>
        <Unit>-</Unit>
        <Quantity>Time point (date &amp; time)</Quantity>
        <Value>2012-01-13T16:34:00Z</Value>
    </DataRecord>

    <DataRecord id=""8"">
        <Function>Instantaneous value</Function>
        <StorageNumber>1</StorageNumber>
        <Unit>Wh</Unit>
        <Quantity>Energy</Quantity>
        <Value>0.000000</Value>
    </DataRecord>

    <DataRecord id=""9"">
        <Function>Instantaneous value</Function>
        <StorageNumber>1</StorageNumber>
        <Unit>-</Unit>
        <Quantity>Time point (date &amp; time)</Quantity>
        <Value>2011-04-30T23:59:00Z</Value>
    </DataRecord>

    <DataRecord id=""10"">
        <Function>Instantaneous value</Function>
        <StorageNumber>1</StorageNumber>
        <Unit>-</Unit>
        <Quantity>Time point (date &amp; time)</Quantity>
        <Value>2012-04-30T23:59:00Z</Value>
    </DataRecord>

    <DataRecord id=""11"">
        <Function>Instantaneous value</Function>
        <StorageNumber>2</StorageNumber>
        <Tariff>0</Tariff>
        <Device>0</Device>
        <Unit>Wh</Unit>
        <Quantity>Energy</Quantity>
        <Value>0.000000</Value>
    </DataRecord>

    <DataRecord id=""12"">
        <Function>Instantaneous value</Function>
        <StorageNumber>2</StorageNumber>
        <Tariff>0</Tariff>
        <Device>0</Device>
        <Unit>-</Unit>
        <Quantity>Time point (date &amp; time)</Quantity>
        <Value>2011-12-31T23:59:00Z</Value>
    </DataRecord>

    <DataRecord id=""13"">
        <Function>Instantaneous value</Function>
        <StorageNumber>0</StorageNumber>
        <Unit>s</Unit>
        <Quantity>Operating time</Quantity>
        <Value>311590800.000000</Value>
    </DataRecord>

</MBusData>
")%list = (false, false).
Proof. vm_compute. reflexivity. Qed.

(** allmess_cf50 *)
Example frame_22 : agrees
  (txt "68 3D 3D 68 08 01 72 00 51 20 02 82 4D 02 04 00 88 00 00 04 07 00 00 00 00 0C 15 03 00 00 00 0B 2E 00 00 00 0B 3B 00 00 00 0A 5A 88 12 0A 5E 16 05 0B 61 23 77 00 02 6C 8C 11 02 27 37 0D 0F 60 00 67 16

")%list
  (txt "<?xml version=""1.0"" encoding=""ISO-8859-1""?>
<MBusData>

    <SlaveInformation>
        <Id>2205100</Id>
        <Manufacturer>SLB</Manufacturer>
        <Version>2</Version>
        <ProductName>Allmess Megacontrol CF-50</ProductName>
        <Medium>Heat: Outlet</Medium>
        <AccessNumber>0</AccessNumber>
        <Status>88</Status>
        <Signature>0000</Signature>
    </SlaveInformation>

    <DataRecord id=""0"">
        <Function>Instantaneous value</Function>
        <StorageNumber>0</StorageNumber>
        <Unit>Wh</Unit>
        <Quantity>Energy</Quantity>
        <Value>0.000000</Value>
    </DataRecord>

    <DataRecord id=""1"">
        <Function>Instantaneous value</Function>
        <StorageNumber>0</StorageNumber>
        <Unit>m^3</Unit>
        <Quantity>Volume</Quantity>
        <Value>0.300000</Value>
    </DataRecord>

    <DataRecord id=""2"">
        <Function>Instantaneous value</Function>
        <StorageNumber>0</StorageNumber>
        <Unit>W</Unit>
        <Quantity>Power</Quantity>
        <Value>0.000000</Value>
    </DataRecord>

    <DataRecord id=""3"">
        <Function>Instantaneous value</Function>
        <StorageNumber>0</StorageNumber>
        <Unit>m^3/h</Unit>
        <Quantity>Volume flow</Quantity>
        <Value>0.000000</Value>
    </DataRecord>

    <DataRecord id=""4"">
        <Function>Instantaneous value</Function>
        <StorageNumber>0</StorageNumber>
        <Unit>" ++ [176] ++ txt "C</Unit>
        <Quantity>Flow temperature</Quantity>
        <Value>128.800000</Value>
    </DataRecord>

    <DataRecord id=""5"">
        <Function>Instantaneous value</Function>
        <StorageNumber>0</StorageNumber>
        <Unit>" ++ [176] ++ txt "C</Unit>
        <Quantity>Return temperature</Quantity>
        <Value>51.600000</Value>
    </DataRecord>

    <DataRecord id=""6"">
        <Function>Instantaneous value</Function>
        <StorageNumber>0</StorageNumber>
        <Unit>K</Unit>
        <Quantity>Temperature difference</Quantity>
        <Value>77.230000</Value>
    </DataRecord>

    <DataRecord id=""7"">
        <Function>Instantaneous value</Function>
        <StorageNumber>0</StorageNumber>
        <Unit>-</Unit>
        <Quantity>Time point (date)</Quantity>
        <Value>2012-01-12</Value>
    </DataRecord>

    <DataRecord id=""8"">
        <Function>Instantaneous value</Function>
        <StorageNumber>0</StorageNumber>
        <Unit>s</Unit>
        <Quantity>Operating time</Quantity>
        <Value>292291200.000000</Value>
    </DataRecord>

    <DataRecord id=""9"">
        <Function>Manufacturer specific</Function>
        <StorageNumber>0</StorageNumber>
        <Unit></Unit>
        <Quantity></Quantity>
        <Value>60 00</Value>
    </DataRecord>

</MBusData>
")%list = (true, true).
Proof. vm_compute. reflexivity. Qed.

(** amt_calec_mb *)
Example frame_23 : agrees
  (txt "68 38 38 68 08 C8 72 09 31 54 03 B4 05 B0 04 C9 10 FF FF 03 22 9A 00 00 05 2E A0 C8 51 46 05 3E B4 E3 D7 42 05 5B 90 D3 07 43 05 5F 0E AA E7 41 05 63 9C BC D5 42 04 6D 10 09 05 C5 77 16
")%list
  (txt "<?xml version=""1.0"" encoding=""ISO-8859-1""?>
<MBusData>

    <SlaveInformation>
        <Id>3543109</Id>
        <Manufacturer>AMT</Manufacturer>
        <Version>176</Version>
        <ProductName>Aquametro CALEC MB</ProductName>
        <Medium>Heat: Outlet</Medium>
        <AccessNumber>201</AccessNumber>
        <Status>10</Status>
        <Signature>FFFF</Signature>
    </SlaveInformation>

    <DataRecord id=""0"">
        <Function>Instantaneous value</Function>
        <StorageNumber>0</StorageNumber>
        <Unit>s</Unit>
        <Quantity>On time</Quantity>
        <Value>554400.000000</Value>
    </DataRecord>

    <DataRecord id=""1"">
        <Function>Instantaneous value</Function>
        <StorageNumber>0</StorageNumber>
        <Unit>W</Unit>
        <Quantity>Power</Quantity>
        <Value>13426156.250000</Value>
    </DataRecord>

    <DataRecord id=""2"">
        <Function>Instantaneous value</Function>
        <StorageNumber>0</StorageNumber>
        <Unit>m^3/h</Unit>
        <Quantity>Volume flow</Quantity>
        <Value>107.944733</Value>
    </DataRecord>

    <DataRecord id=""3"">
        <Function>Instantaneous value</Function>
        <StorageNumber>0</StorageNumber>
        <Unit>" ++ [176] ++ txt "C</Unit>
        <Quantity>Flow temperature</Quantity>
        <Value>135.826416</Value>
    </DataRecord>

    <DataRecord id=""4"">
        <Function>Instantaneous value</Function>
        <StorageNumber>0</StorageNumber>
        <Unit>" ++ [176] ++ txt "C</Unit>
        <Quantity>Return temperature</Quantity>
        <Value>28.958035</Value>
    </DataRecord>

    <DataRecord id=""5"">
        <Function>Instantaneous value</Function>
        <StorageNumber>0</StorageNumber>
        <Unit>K</Unit>
        <Quantity>Temperature difference</Quantity>
        <Value>106.868378</Value>
    </DataRecord>

    <DataRecord id=""6"">
        <Function>Instantaneous value</Function>
        <StorageNumber>0</StorageNumber>
        <Unit>-</Unit>
        <Quantity>Time point (date &amp; time)</Quantity>
        <Value>2096-05-05T09:16:00Z</Value>
    </DataRecord>

</MBusData>
")%list = (true, true).
Proof. vm_compute. reflexivity. Qed.

(** berg_dz_plus *)
Example frame_24 : agrees
  (txt "68 A3 A3 68 08 00 72 00 00 00 00 42 04 02 02 00 00 00 00 0E 04 00 00 00 00 00 00 8E 10 04 00 00 00 00 00 00 8E 20 04 00 00 00 00 00 00 8E B0 00 04 00 00 00 00 00 00 8E 80 10 04 00 00 00 00 00 00 8E 80 40 04 00 00 00 00 00 00 8E 90 40 04 00 00 00 00 00 00 8E A0 40 04 00 00 00 00 00 00 8E B0 40 04 00 00 00 00 00 00 8E 80 50 04 00 00 00 00 00 00 01 FF 13 00 0B FF 12 00 00 00 0A FF 68 00 00 0A FF 69 00 00 07 FD 17 00 00 00 00 00 00 00 00 01 FF 18 00 1F 00 00 00 00 00 00 00 00 00 00 00 00 00 00 00 00 FC 16
 ")%list
  (txt "<?xml version=""1.0"" encoding=""ISO-8859-1""?>
<MBusData>

    <SlaveInformation>
        <Id>0</Id>
        <Manufacturer>ABB</Manufacturer>
        <Version>2</Version>
        <ProductName>ABB Delta-Meter</ProductName>
        <Medium>Electricity</Medium>
        <AccessNumber>0</AccessNumber>
        <Status>00</Status>
        <Signature>0000</Signature>
    </SlaveInformation>

    <DataRecord id=""0"">
        <Function>Instantaneous value</Function>
        <StorageNumber>0</StorageNumber>
        <Unit>Wh</Unit>
        <Quantity>Energy</Quantity>
        <Value>0.000000</Value>
    </DataRecord>

    <DataRecord id=""1"">
        <Function>Instantaneous value</Function>
        <StorageNumber>0</StorageNumber>
        <Tariff>1</Tariff>
        <Device>0</Device>
        <Unit>Wh</Unit>
        <Quantity>Energy</Quantity>
        <Value>0.000000</Value>
    </DataRecord>

    <DataRecord id=""2"">
        <Function>Instantaneous value</Function>
        <StorageNumber>0</StorageNumber>
        <Tariff>2</Tariff>
        <Device>0</Device>
        <Unit>Wh</Unit>
        <Quantity>Energy</Quantity>
        <Value>0.000000</Value>
    </DataRecord>

    <DataRecord id=""3"">
        <Function>Instantaneous value</Function>
        <StorageNumber>0</StorageNumber>
        <Tariff>3</Tariff>
        <Device>0</Device>
        <Unit>Wh</Unit>
        <Quantity>Energy</Quantity>
        <Value>0.000000</Value>
    </DataRecord>

    <DataRecord id=""4"">
        <Function>Instantaneous value</Function>
        <StorageNumber>0</StorageNumber>
        <Tariff>4</Tariff>
        <Device>0</Device>
        <Unit>Wh</Unit>
        <Quantity>Energy</Quantity>
        <Value>0.000000</Value>
    </DataRecord>

    <DataRecord id=""5"">
        <Function>Instantaneous value</Function>
        <StorageNumber>0</StorageNumber>
        <Tariff>0</Tariff>
        <Device>2</Device>
        <Unit>Wh</Unit>
        <Quantity>Energy</Quantity>
        <Value>0.000000</Value>
    </DataRecord>

    <DataRecord id=""6"">
        <Function>Instantaneous value</Function>
        <StorageNumber>0</StorageNumber>
        <Tariff>1</Tariff>
        <Device>2</Device>
        <Unit>Wh</Unit>
        <Quantity>Energy</Quantity>
        <Value>0.000000</Value>
    </DataRecord>

    <DataRecord id=""7"">
        <Function>Instantaneous value</Function>
        <StorageNumber>0</StorageNumber>
        <Tariff>2</Tariff>
        <Device>2</Device>
        <Unit>Wh</Unit>
        <Quantity>Energy</Quantity>
        <Value>0.000000</Value>
    </DataRecord>

    <DataRecord id=""8"">
        <Function>Instantaneous value</Function>
        <StorageNumber>0</StorageNumber>
        <Tariff>3</Tariff>
        <Device>2</Device>
        <Unit>Wh</Unit>
        <Quantity>Energy</Quantity>
        <Value>0.000000</Value>
    </DataRecord>

    <DataRecord id=""9"">
        <Function>Instantaneous value</Function>
        <StorageNumber>0</StorageNumber>
        <Tariff>4</Tariff>
        <Device>2</Device>
        <Unit>Wh</Unit>
        <Quantity>Energy</Quantity>
        <Value>0.000000</Value>
    </DataRecord>

    <DataRecord id=""10"">
        <Function>Instantaneous value</Function>
        <StorageNumber>0</StorageNumber>
        <Unit></Unit>
        <Quantity>Manufacturer specific</Quantity>
        <Value>0.000000</Value>
    </DataRecord>

    <DataRecord id=""11"">
        <Function>Instantaneous value</Function>
        <StorageNumber>0</StorageNumber>
        <Unit></Unit>
        <Quantity>Manufacturer specific</Quantity>
        <Value>0.000000</Value>
    </DataRecord>

    <DataRecord id=""12"">
        <Function>Instantaneous value</Function>
        <StorageNumber>0</StorageNumber>
        <Unit></Unit>
        <Quantity>Manufacturer specific</Quantity>
        <Value>0.000000</Value>
    </DataRecord>

    <DataRecord id=""13"">
        <Function>Instantaneous value</Function>
        <StorageNumber>0</StorageNumber>
        <Unit></Unit>
        <Quantity>Manufacturer specific</Quantity>
        <Value>0.000000</Value>
    </DataRecord>

    <DataRecord id=""14"">
        <Function>Instantaneous value</Function>
        <StorageNumber>0</StorageNumber>
        <Unit></Unit>
        <Quantity>Error flags</Quantity>
        <Value>0.000000</Value>
    </DataRecord>

    <DataRecord id=""15"">
        <Function>Instantaneous value</Function>
        <StorageNumber>0</StorageNumber>
        <Unit></Unit>
        <Quantity>Manufacturer specific</Quantity>
        <Value>0.000000</Value>
    </DataRecord>

    <DataRecord id=""16"">
        <Function>More records follow</Function>
        <StorageNumber>0</StorageNumber>
        <Unit></Unit>
        <Quantity></Quantity>
        <Value>00 00 00 00 00 00 00 00 00 00 00 00 00 00 00 00</Value>
    </DataRecord>

</MBusData>
")%list = (true, true).
Proof. vm_compute. reflexivity. Qed.

(** eastron_sdm630 *)
Example frame_25 : agrees
  (txt "68 90 90 68 08 0A 72 78 65 34 21 24 40 01 02 55 00 00 00 0B FD 47 56 34 12 0B FD 47 56 34 12 0B FD 47 56 34 12 0B FD 47 56 34 12 0B FD 47 56 34 12 0B FD 47 56 34 12 0B FD 59 56 34 12 0B FD 59 56 34 12 0B FD 59 56 34 12 0B FD 59 56 34 12 0B 2A 56 34 12 0B 2A 56 34 12 0B 2A 56 34 12 0B 2A 56 34 12 0B FD 3A 56 34 12 0B FD 3A 56 34 12 0B FD 3A 56 34 12 0B FD 3A 56 34 12 0A FD 3A 00 05 0A FD 3A 05 00 0A FD 3A 05 00 0A FD 3A 05 00 0A FD 3A 50 00 4D 16
")%list
  (txt "<?xml version=""1.0"" encoding=""ISO-8859-1""?>
<MBusData>

    <SlaveInformation>
        <Id>21346578</Id>
        <Manufacturer>PAD</Manufacturer>
        <Version>1</Version>
        <ProductName></ProductName>
        <Medium>Electricity</Medium>
        <AccessNumber>85</AccessNumber>
        <Status>00</Status>
        <Signature>0000</Signature>
    </SlaveInformation>

    <DataRecord id=""0"">
        <Function>Instantaneous value</Function>
        <StorageNumber>0</StorageNumber>
        <Unit>V</Unit>
        <Quantity>Voltage</Quantity>
        <Value>1234.560000</Value>
    </DataRecord>

    <DataRecord id=""1"">
        <Function>Instantaneous value</Function>
        <StorageNumber>0</StorageNumber>
        <Unit>V</Unit>
        <Quantity>Voltage</Quantity>
        <Value>1234.560000</Value>
    </DataRecord>

    <DataRecord id=""2"">
        <Function>Instantaneous value</Function>
        <StorageNumber>0</StorageNumber>
        <Unit>V</Unit>
        <Quantity>Voltage</Quantity>
        <Value>1234.560000</Value>
    </DataRecord>

    <DataRecord id=""3"">
        <Function>Instantaneous value</Function>
        <StorageNumber>0</StorageNumber>
        <Unit>V</Unit>
        <Quantity>Voltage</Quantity>
        <Value>1234.560000</Value>
    </DataRecord>

    <DataRecord id=""4"">
        <Function>Instantaneous value</Function>
        <StorageNumber>0</StorageNumber>
        <Unit>V</Unit>
        <Quantity>Voltage</Quantity>
        <Value>1234.560000</Value>
    </DataRecord>

    <DataRecord id=""5"">
        <Function>Instantaneous value</Function>
        <StorageNumber>0</StorageNumber>
        <Unit>V</Unit>
        <Quantity>Voltage</Quantity>
        <Value>1234.560000</Value>
    </DataRecord>

    <DataRecord id=""6"">
        <Function>Instantaneous value</Function>
        <StorageNumber>0</StorageNumber>
        <Unit>A</Unit>
        <Quantity>Current</Quantity>
        <Value>123.456000</Value>
    </DataRecord>

    <DataRecord id=""7"">
        <Function>Instantaneous value</Function>
        <StorageNumber>0</StorageNumber>
        <Unit>A</Unit>
        <Quantity>Current</Quantity>
        <Value>123.456000</Value>
    </DataRecord>

    <DataRecord id=""8"">
        <Function>Instantaneous value</Function>
        <StorageNumber>0</StorageNumber>
        <Unit>A</Unit>
        <Quantity>Current</Quantity>
        <Value>123.456000</Value>
    </DataRecord>

    <DataRecord id=""9"">
        <Function>Instantaneous value</Function>
        <StorageNumber>0</StorageNumber>
        <Unit>A</Unit>
        <Quantity>Current</Quantity>
        <Value>123.456000</Value>
    </DataRecord>

    <DataRecord id=""10"">
        <Function>Instantaneous value</Function>
        <StorageNumber>0</StorageNumber>
        <Unit>W</Unit>
        <Quantity>Power</Quantity>
        <Value>12345.600000</Value>
    </DataRecord>

    <DataRecord id=""11"">
        <Function>Instantaneous value</Function>
        <StorageNumber>0</StorageNumber>
        <Unit>W</Unit>
        <Quantity>Power</Quantity>
        <Value>12345.600000</Value>
    </DataRecord>

    <DataRecord id=""12"">
        <Function>Instantaneous value</Function>
        <StorageNumber>0</StorageNumber>
        <Unit>W</Unit>
        <Quantity>Power</Quantity>
        <Value>12345.600000</Value>
    </DataRecord>

    <DataRecord id=""13"">
        <Function>Instantaneous value</Function>
        <StorageNumber>0</StorageNumber>
        <Unit>W</Unit>
        <Quantity>Power</Quantity>
        <Value>12345.600000</Value>
    </DataRecord>

    <DataRecord id=""14"">
        <Function>Instantaneous value</Function>
        <StorageNumber>0</StorageNumber>
        <Unit></Unit>
        <Quantity>Dimensionless</Quantity>
        <Value>123456.000000</Value>
    </DataRecord>

    <DataRecord id=""15"">
        <Function>Instantaneous value</Function>
        <StorageNumber>0</StorageNumber>
        <Unit></Unit>
        <Quantity>Dimensionless</Quantity>
        <Value>123456.000000</Value>
    </DataRecord>

    <DataRecord id=""16"">
        <Function>Instantaneous value</Function>
        <StorageNumber>0</StorageNumber>
        <Unit></Unit>
        <Quantity>Dimensionless</Quantity>
        <Value>123456.000000</Value>
    </DataRecord>

    <DataRecord id=""17"">
        <Function>Instantaneous value</Function>
        <StorageNumber>0</StorageNumber>
        <Unit></Unit>
        <Quantity>Dimensionless</Quantity>
        <Value>123456.000000</Value>
    </DataRecord>

    <DataRecord id=""18"">
        <Function>Instantaneous value</Function>
        <StorageNumber>0</StorageNumber>
        <Unit></Unit>
        <Quantity>Dimensionless</Quantity>
        <Value>500.000000</Value>
    </DataRecord>

    <DataRecord id=""19"">
        <Function>Instantaneous value</Function>
        <StorageNumber>0</StorageNumber>
        <Unit></Unit>
        <Quantity>Dimensionless</Quantity>
        <Value>5.000000</Value>
    </DataRecord>

    <DataRecord id=""20"">
        <Function>Instantaneous value</Function>
        <StorageNumber>0</StorageNumber>
        <Unit></Unit>
        <Quantity>Dimensionless</Quantity>
        <Value>5.000000</Value>
    </DataRecord>

    <DataRecord id=""21"">
        <Function>Instantaneous value</Function>
        <StorageNumber>0</StorageNumber>
        <Unit></Unit>
        <Quantity>Dimensionless</Quantity>
        <Value>5.000000</Value>
    </DataRecord>

    <DataRecord id=""22"">
        <Function>Instantaneous value</Function>
        <StorageNumber>0</StorageNumber>
        <Unit></Unit>
        <Quantity>Dimensionless</Quantity>
        <Value>50.000000</Value>
    </DataRecord>

</MBusData>
")%list = (true, true).
Proof. vm_compute. reflexivity. Qed.

(** els_falcon *)
Example frame_26 : agrees
  (txt "68 4A 4A 68 08 01 72 45 23 11 70 93 15 0A 07 02 00 00 00 0C 13 67 45 23 01 04 6D 3A 0D E6 02 42 6C E1 01 4C 13 51 69 45 00 42 EC 7E 01 11 12 3B 39 17 42 6C 01 11 02 3B F9 17 0F 0E 42 20 01 01 01 00 05 08 5E 01 20 3D 12 08 3D 12 08 00 C0 16")%list
  (txt "<?xml version=""1.0"" encoding=""ISO-8859-1""?>
<MBusData>

    <SlaveInformation>
        <Id>70112345</Id>
        <Manufacturer>ELS</Manufacturer>
        <Version>10</Version>
        <ProductName>Elster Falcon</ProductName>
        <Medium>Water</Medium>
        <AccessNumber>2</AccessNumber>
        <Status>00</Status>
        <Signature>0000</Signature>
    </SlaveInformation>

    <DataRecord id=""0"">
        <Function>Instantaneous value</Function>
        <StorageNumber>0</StorageNumber>
        <Unit>m^3</Unit>
        <Quantity>Volume</Quantity>
        <Value>1234.567000</Value>
    </DataRecord>

    <DataRecord id=""1"">
        <Function>Instantaneous value</Function>
        <StorageNumber>0</StorageNumber>
        <Unit>-</Unit>
        <Quantity>Time point (date &amp; time)</Quantity>
        <Value>2007-02-06T13:58:00Z</Value>
    </DataRecord>

    <DataRecord id=""2"">
        <Function>Instantaneous value</Function>
        <StorageNumber>1</StorageNumber>
        <Unit>-</Unit>
        <Quantity>Time point (date)</Quantity>
        <Value>2007-01-01</Value>
    </DataRecord>

    <DataRecord id=""3"">
        <Function>Instantaneous value</Function>
        <StorageNumber>1</StorageNumber>
        <Unit>m^3</Unit>
        <Quantity>Volume</Quantity>
        <Value>456.951000</Value>
    </DataRecord>

    <DataRecord id=""4"">
        <Function>Instantaneous value</Function>
        <StorageNumber>1</StorageNumber>
        <Unit>-</Unit>
        <Quantity>Time point (date)</Quantity>
        <Value>2008-01-01</Value>
    </DataRecord>

    <DataRecord id=""5"">
        <Function>Maximum value</Function>
        <StorageNumber>0</StorageNumber>
        <Unit>m^3/h</Unit>
        <Quantity>Volume flow</Quantity>
        <Value>5.945000</Value>
    </DataRecord>

    <DataRecord id=""6"">
        <Function>Instantaneous value</Function>
        <StorageNumber>1</StorageNumber>
        <Unit>-</Unit>
        <Quantity>Time point (date)</Quantity>
        <Value>2008-01-01</Value>
    </DataRecord>

    <DataRecord id=""7"">
        <Function>Instantaneous value</Function>
        <StorageNumber>0</StorageNumber>
        <Unit>m^3/h</Unit>
        <Quantity>Volume flow</Quantity>
        <Value>6.137000</Value>
    </DataRecord>

    <DataRecord id=""8"">
        <Function>Manufacturer specific</Function>
        <StorageNumber>0</StorageNumber>
        <Unit></Unit>
        <Quantity></Quantity>
        <Value>0E 42 20 01 01 01 00 05 08 5E 01 20 3D 12 08 3D 12 08 00</Value>
    </DataRecord>

</MBusData>
")%list = (true, true).
Proof. vm_compute. reflexivity. Qed.

(** els_tmpa_telegramm1 *)
Example frame_27 : agrees
  (txt "68 2C 2C 68 08 01 72 45 23 11 70 93 15 02 07 02 00 00 00 0C 13 67 45 23 01 04 6D 3A 0D E6 02 42 6C E1 01 4C 13 51 69 45 00 42 EC 7E 01 11 0F 00 61 16")%list
  (txt "<?xml version=""1.0"" encoding=""ISO-8859-1""?>
<MBusData>

    <SlaveInformation>
        <Id>70112345</Id>
        <Manufacturer>ELS</Manufacturer>
        <Version>2</Version>
        <ProductName>Elster TMP-A</ProductName>
        <Medium>Water</Medium>
        <AccessNumber>2</AccessNumber>
        <Status>00</Status>
        <Signature>0000</Signature>
    </SlaveInformation>

    <DataRecord id=""0"">
        <Function>Instantaneous value</Function>
        <StorageNumber>0</StorageNumber>
        <Unit>m^3</Unit>
        <Quantity>Volume</Quantity>
        <Value>1234.567000</Value>
    </DataRecord>

    <DataRecord id=""1"">
        <Function>Instantaneous value</Function>
        <StorageNumber>0</StorageNumber>
        <Unit>-</Unit>
        <Quantity>Time point (date &amp; time)</Quantity>
        <Value>2007-02-06T13:58:00Z</Value>
    </DataRecord>

    <DataRecord id=""2"">
        <Function>Instantaneous value</Function>
        <StorageNumber>1</StorageNumber>
        <Unit>-</Unit>
        <Quantity>Time point (date)</Quantity>
        <Value>2007-01-01</Value>
    </DataRecord>

    <DataRecord id=""3"">
        <Function>Instantaneous value</Function>
        <StorageNumber>1</StorageNumber>
        <Unit>m^3</Unit>
        <Quantity>Volume</Quantity>
        <Value>456.951000</Value>
    </DataRecord>

    <DataRecord id=""4"">
        <Function>Instantaneous value</Function>
        <StorageNumber>1</StorageNumber>
        <Unit>-</Unit>
        <Quantity>Time point (date)</Quantity>
        <Value>2008-01-01</Value>
    </DataRecord>

    <DataRecord id=""5"">
        <Function>Manufacturer specific</Function>
        <StorageNumber>0</StorageNumber>
        <Unit></Unit>
        <Quantity></Quantity>
        <Value>00</Value>
    </DataRecord>

</MBusData>
")%list = (true, true).
Proof. vm_compute. reflexivity. Qed.

(** elv_temp_humid *)
Example frame_28 : agrees
  (txt "68 53 53 68 08 05 72 34 08 00 54 96 15 32 00 F2 00 00 00 01 FD 1B 00 02 FC 03 48 52 25 74 D4 11 22 FC 03 48 52 25 74 C8 11 12 FC 03 48 52 25 74 B4 16 02 65 D0 08 22 65 70 08 12 65 23 09 01 72 18 42 65 E4 08 82 01 65 DD 08 0C 78 34 08 00 54 03 FD 0F 00 00 04 1F 5D 16
")%list
  (txt "<?xml version=""1.0"" encoding=""ISO-8859-1""?>
<MBusData>

    <SlaveInformation>
        <Id>54000834</Id>
        <Manufacturer>ELV</Manufacturer>
        <Version>50</Version>
        <ProductName>Elvaco CMa11</ProductName>
        <Medium>Other</Medium>
        <AccessNumber>242</AccessNumber>
        <Status>00</Status>
        <Signature>0000</Signature>
    </SlaveInformation>

    <DataRecord id=""0"">
        <Function>Instantaneous value</Function>
        <StorageNumber>0</StorageNumber>
        <Unit></Unit>
        <Quantity>Digital Input</Quantity>
        <Value>0.000000</Value>
    </DataRecord>

    <DataRecord id=""1"">
        <Function>Instantaneous value</Function>
        <StorageNumber>0</StorageNumber>
        <Unit>-</Unit>
        <Quantity>%RH</Quantity>
        <Value>45.640000</Value>
    </DataRecord>

    <DataRecord id=""2"">
        <Function>Minimum value</Function>
        <StorageNumber>0</StorageNumber>
        <Unit>-</Unit>
        <Quantity>%RH</Quantity>
        <Value>45.520000</Value>
    </DataRecord>

    <DataRecord id=""3"">
        <Function>Maximum value</Function>
        <StorageNumber>0</StorageNumber>
        <Unit>-</Unit>
        <Quantity>%RH</Quantity>
        <Value>58.120000</Value>
    </DataRecord>

    <DataRecord id=""4"">
        <Function>Instantaneous value</Function>
        <StorageNumber>0</StorageNumber>
        <Unit>" ++ [176] ++ txt "C</Unit>
        <Quantity>External temperature</Quantity>
        <Value>22.560000</Value>
    </DataRecord>

    <DataRecord id=""5"">
        <Function>Minimum value</Function>
        <StorageNumber>0</StorageNumber>
        <Unit>" ++ [176] ++ txt "C</Unit>
        <Quantity>External temperature</Quantity>
        <Value>21.600000</Value>
    </DataRecord>

    <DataRecord id=""6"">
        <Function>Maximum value</Function>
        <StorageNumber>0</StorageNumber>
        <Unit>" ++ [176] ++ txt "C</Unit>
        <Quantity>External temperature</Quantity>
        <Value>23.390000</Value>
    </DataRecord>

    <DataRecord id=""7"">
        <Function>Instantaneous value</Function>
        <StorageNumber>0</StorageNumber>
        <Unit>s</Unit>
        <Quantity>Averaging Duration</Quantity>
        <Value>86400.000000</Value>
    </DataRecord>

    <DataRecord id=""8"">
        <Function>Instantaneous value</Function>
        <StorageNumber>1</StorageNumber>
        <Unit>" ++ [176] ++ txt "C</Unit>
        <Quantity>External temperature</Quantity>
        <Value>22.760000</Value>
    </DataRecord>

    <DataRecord id=""9"">
        <Function>Instantaneous value</Function>
        <StorageNumber>2</StorageNumber>
        <Tariff>0</Tariff>
        <Device>0</Device>
        <Unit>" ++ [176] ++ txt "C</Unit>
        <Quantity>External temperature</Quantity>
        <Value>22.690000</Value>
    </DataRecord>

    <DataRecord id=""10"">
        <Function>Instantaneous value</Function>
        <StorageNumber>0</StorageNumber>
        <Unit></Unit>
        <Quantity>Fabrication No</Quantity>
        <Value>54000834.000000</Value>
    </DataRecord>

    <DataRecord id=""11"">
        <Function>Instantaneous value</Function>
        <StorageNumber>0</StorageNumber>
        <Unit></Unit>
        <Quantity>Software version</Quantity>
        <Value>262144.000000</Value>
    </DataRecord>

    <DataRecord id=""12"">
        <Function>More records follow</Function>
        <StorageNumber>0</StorageNumber>
        <Unit></Unit>
        <Quantity></Quantity>
        <Value></Value>
    </DataRecord>

</MBusData>
")%list = (false, true).
Proof. vm_compute. reflexivity. Qed.

(** emh_diz *)
Example frame_29 : agrees
  (txt "68 21 21 68 08 01 72 02 37 62 00 A8 15 00 02 07 00 00 00 8C 10 04 09 04 00 00 C4 00 2A 00 00 00 00 01 FD 17 00 8C 16
")%list
  (txt "<?xml version=""1.0"" encoding=""ISO-8859-1""?>
<MBusData>

    <SlaveInformation>
        <Id>623702</Id>
        <Manufacturer>EMH</Manufacturer>
        <Version>0</Version>
        <ProductName>EMH DIZ</ProductName>
        <Medium>Electricity</Medium>
        <AccessNumber>7</AccessNumber>
        <Status>00</Status>
        <Signature>0000</Signature>
    </SlaveInformation>

    <DataRecord id=""0"">
        <Function>Instantaneous value</Function>
        <StorageNumber>0</StorageNumber>
        <Tariff>1</Tariff>
        <Device>0</Device>
        <Unit>Wh</Unit>
        <Quantity>Energy</Quantity>
        <Value>4090.000000</Value>
    </DataRecord>

    <DataRecord id=""1"">
        <Function>Instantaneous value</Function>
        <StorageNumber>1</StorageNumber>
        <Tariff>0</Tariff>
        <Device>0</Device>
        <Unit>W</Unit>
        <Quantity>Power</Quantity>
        <Value>0.000000</Value>
    </DataRecord>

    <DataRecord id=""2"">
        <Function>Instantaneous value</Function>
        <StorageNumber>0</StorageNumber>
        <Unit></Unit>
        <Quantity>Error flags</Quantity>
        <Value>0.000000</Value>
    </DataRecord>

</MBusData>
")%list = (true, true).
Proof. vm_compute. reflexivity. Qed.

(** engelmann_sensostar2c *)
Example frame_30 : agrees
  (txt "68 A6 A6 68 08 03 72 10 00 38 10 C5 14 01 04 1E 00 00 00 04 78 EA 62 9E 00 04 6D 32 14 86 16 04 15 81 00 00 00 04 FB 00 08 00 00 00 84 20 FB 00 00 00 00 00 84 30 FB 00 00 00 00 00 04 3D 00 00 00 00 04 2D 00 00 00 00 02 5B 5F 00 02 5F 2B 00 04 61 8A 14 00 00 02 27 FA 01 01 FD 17 00 04 90 28 A0 86 01 00 42 6C 7F 1C 44 15 81 00 00 00 44 FB 00 08 00 00 00 C4 20 FB 00 00 00 00 00 C4 30 FB 00 00 00 00 00 82 01 6C 5F 1C 84 01 15 54 00 00 00 84 01 FB 00 05 00 00 00 84 21 FB 00 00 00 00 00 84 31 FB 00 00 00 00 00 B7 16")%list
  (txt "<?xml version=""1.0"" encoding=""ISO-8859-1""?>
<MBusData>

    <SlaveInformation>
        <Id>10380010</Id>
        <Manufacturer>EFE</Manufacturer>
        <Version>1</Version>
        <ProductName>Engelmann SensoStar 2C</ProductName>
        <Medium>Heat: Outlet</Medium>
        <AccessNumber>30</AccessNumber>
        <Status>00</Status>
        <Signature>0000</Signature>
    </SlaveInformation>

    <DataRecord id=""0"">
        <Function>Instantaneous value</Function>
        <StorageNumber>0</StorageNumber>
        <Unit></Unit>
        <Quantity>Fabrication No</Quantity>
        <Value>10380010.000000</Value>
    </DataRecord>

    <DataRecord id=""1"">
        <Function>Instantaneous value</Function>
        <StorageNumber>0</StorageNumber>
        <Unit>-</Unit>
        <Quantity>Time point (date &amp; time)</Quantity>
        <Value>2012-06-06T20:50:00Z</Value>
    </DataRecord>

    <DataRecord id=""2"">
        <Function>Instantaneous value</Function>
        <StorageNumber>0</StorageNumber>
        <Unit>m^3</Unit>
        <Quantity>Volume</Quantity>
        <Value>12.900000</Value>
    </DataRecord>

    <DataRecord id=""3"">
        <Function>Instantaneous value</Function>
        <StorageNumber>0</StorageNumber>
        <Unit>Wh</Unit>
        <Quantity>Energy</Quantity>
        <Value>800000.000000</Value>
    </DataRecord>

    <DataRecord id=""4"">
        <Function>Instantaneous value</Function>
        <StorageNumber>0</StorageNumber>
        <Tariff>2</Tariff>
        <Device>0</Device>
        <Unit>Wh</Unit>
        <Quantity>Energy</Quantity>
        <Value>0.000000</Value>
    </DataRecord>

    <DataRecord id=""5"">
        <Function>Instantaneous value</Function>
        <StorageNumber>0</StorageNumber>
        <Tariff>3</Tariff>
        <Device>0</Device>
        <Unit>Wh</Unit>
        <Quantity>Energy</Quantity>
        <Value>0.000000</Value>
    </DataRecord>

    <DataRecord id=""6"">
        <Function>Instantaneous value</Function>
        <StorageNumber>0</StorageNumber>
        <Unit>m^3/h</Unit>
        <Quantity>Volume flow</Quantity>
        <Value>0.000000</Value>
    </DataRecord>

    <DataRecord id=""7"">
        <Function>Instantaneous value</Function>
        <StorageNumber>0</StorageNumber>
        <Unit>W</Unit>
        <Quantity>Power</Quantity>
        <Value>0.000000</Value>
    </DataRecord>

    <DataRecord id=""8"">
        <Function>Instantaneous value</Function>
        <StorageNumber>0</StorageNumber>
        <Unit>" ++ [176] ++ txt "C</Unit>
        <Quantity>Flow temperature</Quantity>
        <Value>95.000000</Value>
    </DataRecord>

    <DataRecord id=""9"">
        <Function>Instantaneous value</Function>
        <StorageNumber>0</StorageNumber>
        <Unit>" ++ [176] ++ txt "C</Unit>
        <Quantity>Return temperature</Quantity>
        <Value>43.000000</Value>
    </DataRecord>

    <DataRecord id=""10"">
        <Function>Instantaneous value</Function>
        <StorageNumber>0</StorageNumber>
        <Unit>K</Unit>
        <Quantity>Temperature difference</Quantity>
        <Value>52.580000</Value>
    </DataRecord>

    <DataRecord id=""11"">
        <Function>Instantaneous value</Function>
        <StorageNumber>0</StorageNumber>
        <Unit>s</Unit>
        <Quantity>Operating time</Quantity>
        <Value>43718400.000000</Value>
    </DataRecord>

    <DataRecord id=""12"">
        <Function>Instantaneous value</Function>
        <StorageNumber>0</StorageNumber>
        <Unit></Unit>
        <Quantity>Error flags</Quantity>
        <Value>0.000000</Value>
    </DataRecord>

    <DataRecord id=""13"">
        <Function>Instantaneous value</Function>
        <StorageNumber>0</StorageNumber>
        <Unit>m^3</Unit>
        <Quantity>Volume</Quantity>
        <Value>0.100000</Value>
    </DataRecord>

    <DataRecord id=""14"">
        <Function>Instantaneous value</Function>
        <StorageNumber>1</StorageNumber>
        <Unit>-</Unit>
        <Quantity>Time point (date)</Quantity>
        <Value>2011-12-31</Value>
    </DataRecord>

    <DataRecord id=""15"">
        <Function>Instantaneous value</Function>
        <StorageNumber>1</StorageNumber>
        <Unit>m^3</Unit>
        <Quantity>Volume</Quantity>
        <Value>12.900000</Value>
    </DataRecord>

    <DataRecord id=""16"">
        <Function>Instantaneous value</Function>
        <StorageNumber>1</StorageNumber>
        <Unit>Wh</Unit>
        <Quantity>Energy</Quantity>
        <Value>800000.000000</Value>
    </DataRecord>

    <DataRecord id=""17"">
        <Function>Instantaneous value</Function>
        <StorageNumber>1</StorageNumber>
        <Tariff>2</Tariff>
        <Device>0</Device>
        <Unit>Wh</Unit>
        <Quantity>Energy</Quantity>
        <Value>0.000000</Value>
    </DataRecord>

    <DataRecord id=""18"">
        <Function>Instantaneous value</Function>
        <StorageNumber>1</StorageNumber>
        <Tariff>3</Tariff>
        <Device>0</Device>
        <Unit>Wh</Unit>
        <Quantity>Energy</Quantity>
        <Value>0.000000</Value>
    </DataRecord>

    <DataRecord id=""19"">
        <Function>Instantaneous value</Function>
        <StorageNumber>2</StorageNumber>
        <Tariff>0</Tariff>
        <Device>0</Device>
        <Unit>-</Unit>
        <Quantity>Time point (date)</Quantity>
        <Value>2010-12-31</Value>
    </DataRecord>

    <DataRecord id=""20"">
        <Function>Instantaneous value</Function>
        <StorageNumber>2</StorageNumber>
        <Tariff>0</Tariff>
        <Device>0</Device>
        <Unit>m^3</Unit>
        <Quantity>Volume</Quantity>
        <Value>8.400000</Value>
    </DataRecord>

    <DataRecord id=""21"">
        <Function>Instantaneous value</Function>
        <StorageNumber>2</StorageNumber>
        <Tariff>0</Tariff>
        <Device>0</Device>
        <Unit>Wh</Unit>
        <Quantity>Energy</Quantity>
        <Value>500000.000000</Value>
    </DataRecord>

    <DataRecord id=""22"">
        <Function>Instantaneous value</Function>
        <StorageNumber>2</StorageNumber>
        <Tariff>2</Tariff>
        <Device>0</Device>
        <Unit>Wh</Unit>
        <Quantity>Energy</Quantity>
        <Value>0.000000</Value>
    </DataRecord>

    <DataRecord id=""23"">
        <Function>Instantaneous value</Function>
        <StorageNumber>2</StorageNumber>
        <Tariff>3</Tariff>
        <Device>0</Device>
        <Unit>Wh</Unit>
        <Quantity>Energy</Quantity>
        <Value>0.000000</Value>
    </DataRecord>

</MBusData>
")%list = (true, true).
Proof. vm_compute. reflexivity. Qed.

(** example_data_01 *)
Example frame_31 : agrees
  (txt "68 31 31 68 08 01 72 45 58 57 03 B4 05 34 04 9E 00 27 B6 03 06 F9 34 15 03 15 C6 00 4D 05 2E 00 00 00 00 05 3D 00 00 00 00 05 5B 22 F3 26 42 05 5F C7 DA 0D 42 FA 16")%list
  (txt "<?xml version=""1.0"" encoding=""ISO-8859-1""?>
<MBusData>

    <SlaveInformation>
        <Id>3575845</Id>
        <Manufacturer>AMT</Manufacturer>
        <Version>52</Version>
        <ProductName>Aquametro AMTRON</ProductName>
        <Medium>Heat: Outlet</Medium>
        <AccessNumber>158</AccessNumber>
        <Status>00</Status>
        <Signature>B627</Signature>
    </SlaveInformation>

    <DataRecord id=""0"">
        <Function>Instantaneous value</Function>
        <StorageNumber>0</StorageNumber>
        <Unit>Wh</Unit>
        <Quantity>Energy</Quantity>
        <Value>1389817000.000000</Value>
    </DataRecord>

    <DataRecord id=""1"">
        <Function>Instantaneous value</Function>
        <StorageNumber>0</StorageNumber>
        <Unit>m^3</Unit>
        <Quantity>Volume</Quantity>
        <Value>504647.000000</Value>
    </DataRecord>

    <DataRecord id=""2"">
        <Function>Instantaneous value</Function>
        <StorageNumber>0</StorageNumber>
        <Unit>W</Unit>
        <Quantity>Power</Quantity>
        <Value>0.000000</Value>
    </DataRecord>

    <DataRecord id=""3"">
        <Function>Instantaneous value</Function>
        <StorageNumber>0</StorageNumber>
        <Unit>m^3/h</Unit>
        <Quantity>Volume flow</Quantity>
        <Value>0.000000</Value>
    </DataRecord>

    <DataRecord id=""4"">
        <Function>Instantaneous value</Function>
        <StorageNumber>0</StorageNumber>
        <Unit>" ++ [176] ++ txt "C</Unit>
        <Quantity>Flow temperature</Quantity>
        <Value>41.737434</Value>
    </DataRecord>

    <DataRecord id=""5"">
        <Function>Instantaneous value</Function>
        <StorageNumber>0</StorageNumber>
        <Unit>" ++ [176] ++ txt "C</Unit>
        <Quantity>Return temperature</Quantity>
        <Value>35.463650</Value>
    </DataRecord>

</MBusData>
")%list = (true, true).
Proof. vm_compute. reflexivity. Qed.

(** example_data_02 *)
Example frame_32 : agrees
  (txt "68 31 31 68 08 01 72 45 58 57 03 B4 05 34 04 A1 00 27 B6 03 06 F9 34 15 03 15 C6 00 4D 05 2E 00 00 00 00 05 3D 00 00 00 00 05 5B 1E D8 24 42 05 5F D9 8A 0D 42 9E 16 ")%list
  (txt "<?xml version=""1.0"" encoding=""ISO-8859-1""?>
<MBusData>

    <SlaveInformation>
        <Id>3575845</Id>
        <Manufacturer>AMT</Manufacturer>
        <Version>52</Version>
        <ProductName>Aquametro AMTRON</ProductName>
        <Medium>Heat: Outlet</Medium>
        <AccessNumber>161</AccessNumber>
        <Status>00</Status>
        <Signature>B627</Signature>
    </SlaveInformation>

    <DataRecord id=""0"">
        <Function>Instantaneous value</Function>
        <StorageNumber>0</StorageNumber>
        <Unit>Wh</Unit>
        <Quantity>Energy</Quantity>
        <Value>1389817000.000000</Value>
    </DataRecord>

    <DataRecord id=""1"">
        <Function>Instantaneous value</Function>
        <StorageNumber>0</StorageNumber>
        <Unit>m^3</Unit>
        <Quantity>Volume</Quantity>
        <Value>504647.000000</Value>
    </DataRecord>

    <DataRecord id=""2"">
        <Function>Instantaneous value</Function>
        <StorageNumber>0</StorageNumber>
        <Unit>W</Unit>
        <Quantity>Power</Quantity>
        <Value>0.000000</Value>
    </DataRecord>

    <DataRecord id=""3"">
        <Function>Instantaneous value</Function>
        <StorageNumber>0</StorageNumber>
        <Unit>m^3/h</Unit>
        <Quantity>Volume flow</Quantity>
        <Value>0.000000</Value>
    </DataRecord>

    <DataRecord id=""4"">
        <Function>Instantaneous value</Function>
        <StorageNumber>0</StorageNumber>
        <Unit>" ++ [176] ++ txt "C</Unit>
        <Quantity>Flow temperature</Quantity>
        <Value>41.211052</Value>
    </DataRecord>

    <DataRecord id=""5"">
        <Function>Instantaneous value</Function>
        <StorageNumber>0</StorageNumber>
        <Unit>" ++ [176] ++ txt "C</Unit>
        <Quantity>Return temperature</Quantity>
        <Value>35.385593</Value>
    </DataRecord>

</MBusData>
")%list = (true, true).
Proof. vm_compute. reflexivity. Qed.

(** filler *)
Example frame_33 : agrees
  (txt "68 1F 1F 68 08 00 72 31 77 67 17 2D 2C 01 02 00 00 00 00 2F 2F 04 83 3B 88 13 00 00 2F 2F 2F 2F 2F 2F 2F 00 16 ")%list
  (txt "<?xml version=""1.0"" encoding=""ISO-8859-1""?>
<MBusData>

    <SlaveInformation>
        <Id>17677731</Id>
        <Manufacturer>KAM</Manufacturer>
        <Version>1</Version>
        <ProductName>Kamstrup 382 (6850-005)</ProductName>
        <Medium>Electricity</Medium>
        <AccessNumber>0</AccessNumber>
        <Status>00</Status>
        <Signature>0000</Signature>
    </SlaveInformation>

    <DataRecord id=""0"">
        <Function>Instantaneous value</Function>
        <StorageNumber>0</StorageNumber>
        <Unit>Wh</Unit>
        <Quantity>Energy</Quantity>
        <Value>5000.000000</Value>
    </DataRecord>

</MBusData>
")%list = (true, true).
Proof. vm_compute. reflexivity. Qed.

(** frame1 *)
Example frame_34 : agrees
  (txt "68 54 54 68 08 00 72 58 09 06 10 65 32 16 0E 7B 00 00 00 0F 5F 42 01 11 FF FF FF FF 01 00 00 00 00 00 00 00 00 00 00 00 00 00 00 00 00 00 00 00 00 00 00 00 00 00 00 00 00 00 00 00 00 00 00 00 00 00 00 00 00 00 00 00 00 00 00 00 00 00 00 00 00 00 00 00 00 00 00 00 E6 16
")%list
  (txt "<?xml version=""1.0"" encoding=""ISO-8859-1""?>
<MBusData>

    <SlaveInformation>
        <Id>10060958</Id>
        <Manufacturer>LSE</Manufacturer>
        <Version>22</Version>
        <ProductName></ProductName>
        <Medium>Bus/System</Medium>
        <AccessNumber>123</AccessNumber>
        <Status>00</Status>
        <Signature>0000</Signature>
    </SlaveInformation>

    <DataRecord id=""0"">
        <Function>Manufacturer specific</Function>
        <StorageNumber>0</StorageNumber>
        <Unit></Unit>
        <Quantity></Quantity>
        <Value>5F 42 01 11 FF FF FF FF 01 00 00 00 00 00 00 00 00 00 00 00 00 00 00 00 00 00 00 00 00 00 00 00 00 00 00 00 00 00 00 00 00 00 00 00 00 00 00 00 00 00 00 00 00 00 00 00 00 00 00 00 00 00 00 00 00 00 00 00</Value>
    </DataRecord>

</MBusData>
")%list = (true, true).
Proof. vm_compute. reflexivity. Qed.

(** frame2 *)
Example frame_35 : agrees
  (txt "68 1F 1F 68 08 02 72 78 56 34 12 24 40 01 07 55 00 00 00 03 13 15 31 00 DA 02 3B 13 01 8B 60 04 37 18 02 18 16
")%list
  (txt "<?xml version=""1.0"" encoding=""ISO-8859-1""?>
<MBusData>

    <SlaveInformation>
        <Id>12345678</Id>
        <Manufacturer>PAD</Manufacturer>
        <Version>1</Version>
        <ProductName></ProductName>
        <Medium>Water</Medium>
        <AccessNumber>85</AccessNumber>
        <Status>00</Status>
        <Signature>0000</Signature>
    </SlaveInformation>

    <DataRecord id=""0"">
        <Function>Instantaneous value</Function>
        <StorageNumber>0</StorageNumber>
        <Unit>m^3</Unit>
        <Quantity>Volume</Quantity>
        <Value>12.565000</Value>
    </DataRecord>

    <DataRecord id=""1"">
        <Function>Maximum value</Function>
        <StorageNumber>5</StorageNumber>
        <Tariff>0</Tariff>
        <Device>0</Device>
        <Unit>m^3/h</Unit>
        <Quantity>Volume flow</Quantity>
        <Value>0.113000</Value>
    </DataRecord>

    <DataRecord id=""2"">
        <Function>Instantaneous value</Function>
        <StorageNumber>0</StorageNumber>
        <Tariff>2</Tariff>
        <Device>1</Device>
        <Unit>Wh</Unit>
        <Quantity>Energy</Quantity>
        <Value>218370.000000</Value>
    </DataRecord>

</MBusData>
")%list = (true, true).
Proof. vm_compute. reflexivity. Qed.

(** gmc_emmod206 *)
Example frame_36 : agrees
  (txt "68 91 91 68 08 03 72 78 56 34 12 A3 1D E6 02 02 00 00 00 82 40 FD 48 60 03 82 80 40 FD 48 BF 03 82 C0 40 FD 48 20 04 82 40 FD 59 BD 03 82 80 40 FD 59 1F 04 82 C0 40 FD 59 7E 04 82 40 2B E0 00 82 40 2B 36 FF 84 10 04 94 28 00 00 84 20 04 98 3A 00 00 84 50 04 BF 4E 00 00 84 60 04 A8 61 00 00 84 90 40 04 8B 75 00 00 84 A0 40 04 B8 88 00 00 84 D0 40 04 2D 9D 00 00 84 E0 40 04 C8 AF 00 00 82 41 2B E0 00 82 42 2B 00 00 82 43 2B 00 00 82 44 2B CA 00 42 16
")%list
  (txt "<?xml version=""1.0"" encoding=""ISO-8859-1""?>
<MBusData>

    <SlaveInformation>
        <Id>12345678</Id>
        <Manufacturer>GMC</Manufacturer>
        <Version>230</Version>
        <ProductName>GMC-I A230 EMMOD 206</ProductName>
        <Medium>Electricity</Medium>
        <AccessNumber>2</AccessNumber>
        <Status>00</Status>
        <Signature>0000</Signature>
    </SlaveInformation>

    <DataRecord id=""0"">
        <Function>Instantaneous value</Function>
        <StorageNumber>0</StorageNumber>
        <Tariff>0</Tariff>
        <Device>1</Device>
        <Unit>V</Unit>
        <Quantity>Voltage</Quantity>
        <Value>86.400000</Value>
    </DataRecord>

    <DataRecord id=""1"">
        <Function>Instantaneous value</Function>
        <StorageNumber>0</StorageNumber>
        <Tariff>0</Tariff>
        <Device>2</Device>
        <Unit>V</Unit>
        <Quantity>Voltage</Quantity>
        <Value>95.900000</Value>
    </DataRecord>

    <DataRecord id=""2"">
        <Function>Instantaneous value</Function>
        <StorageNumber>0</StorageNumber>
        <Tariff>0</Tariff>
        <Device>3</Device>
        <Unit>V</Unit>
        <Quantity>Voltage</Quantity>
        <Value>105.600000</Value>
    </DataRecord>

    <DataRecord id=""3"">
        <Function>Instantaneous value</Function>
        <StorageNumber>0</StorageNumber>
        <Tariff>0</Tariff>
        <Device>1</Device>
        <Unit>A</Unit>
        <Quantity>Current</Quantity>
        <Value>0.957000</Value>
    </DataRecord>

    <DataRecord id=""4"">
        <Function>Instantaneous value</Function>
        <StorageNumber>0</StorageNumber>
        <Tariff>0</Tariff>
        <Device>2</Device>
        <Unit>A</Unit>
        <Quantity>Current</Quantity>
        <Value>1.055000</Value>
    </DataRecord>

    <DataRecord id=""5"">
        <Function>Instantaneous value</Function>
        <StorageNumber>0</StorageNumber>
        <Tariff>0</Tariff>
        <Device>3</Device>
        <Unit>A</Unit>
        <Quantity>Current</Quantity>
        <Value>1.150000</Value>
    </DataRecord>

    <DataRecord id=""6"">
        <Function>Instantaneous value</Function>
        <StorageNumber>0</StorageNumber>
        <Tariff>0</Tariff>
        <Device>1</Device>
        <Unit>W</Unit>
        <Quantity>Power</Quantity>
        <Value>224.000000</Value>
    </DataRecord>

    <DataRecord id=""7"">
        <Function>Instantaneous value</Function>
        <StorageNumber>0</StorageNumber>
        <Tariff>0</Tariff>
        <Device>1</Device>
        <Unit>W</Unit>
        <Quantity>Power</Quantity>
        <Value>-202.000000</Value>
    </DataRecord>

    <DataRecord id=""8"">
        <Function>Instantaneous value</Function>
        <StorageNumber>0</StorageNumber>
        <Tariff>1</Tariff>
        <Device>0</Device>
        <Unit>Wh</Unit>
        <Quantity>Energy</Quantity>
        <Value>103880.000000</Value>
    </DataRecord>

    <DataRecord id=""9"">
        <Function>Instantaneous value</Function>
        <StorageNumber>0</StorageNumber>
        <Tariff>2</Tariff>
        <Device>0</Device>
        <Unit>Wh</Unit>
        <Quantity>Energy</Quantity>
        <Value>150000.000000</Value>
    </DataRecord>

    <DataRecord id=""10"">
        <Function>Instantaneous value</Function>
        <StorageNumber>0</StorageNumber>
        <Tariff>1</Tariff>
        <Device>1</Device>
        <Unit>Wh</Unit>
        <Quantity>Energy</Quantity>
        <Value>201590.000000</Value>
    </DataRecord>

    <DataRecord id=""11"">
        <Function>Instantaneous value</Function>
        <StorageNumber>0</StorageNumber>
        <Tariff>2</Tariff>
        <Device>1</Device>
        <Unit>Wh</Unit>
        <Quantity>Energy</Quantity>
        <Value>250000.000000</Value>
    </DataRecord>

    <DataRecord id=""12"">
        <Function>Instantaneous value</Function>
        <StorageNumber>0</StorageNumber>
        <Tariff>1</Tariff>
        <Device>2</Device>
        <Unit>Wh</Unit>
        <Quantity>Energy</Quantity>
        <Value>300910.000000</Value>
    </DataRecord>

    <DataRecord id=""13"">
        <Function>Instantaneous value</Function>
        <StorageNumber>0</StorageNumber>
        <Tariff>2</Tariff>
        <Device>2</Device>
        <Unit>Wh</Unit>
        <Quantity>Energy</Quantity>
        <Value>350000.000000</Value>
    </DataRecord>

    <DataRecord id=""14"">
        <Function>Instantaneous value</Function>
        <StorageNumber>0</StorageNumber>
        <Tariff>1</Tariff>
        <Device>3</Device>
        <Unit>Wh</Unit>
        <Quantity>Energy</Quantity>
        <Value>402370.000000</Value>
    </DataRecord>

    <DataRecord id=""15"">
        <Function>Instantaneous value</Function>
        <StorageNumber>0</StorageNumber>
        <Tariff>2</Tariff>
        <Device>3</Device>
        <Unit>Wh</Unit>
        <Quantity>Energy</Quantity>
        <Value>450000.000000</Value>
    </DataRecord>

    <DataRecord id=""16"">
        <Function>Instantaneous value</Function>
        <StorageNumber>2</StorageNumber>
        <Tariff>0</Tariff>
        <Device>1</Device>
        <Unit>W</Unit>
        <Quantity>Power</Quantity>
        <Value>224.000000</Value>
    </DataRecord>

    <DataRecord id=""17"">
        <Function>Instantaneous value</Function>
        <StorageNumber>4</StorageNumber>
        <Tariff>0</Tariff>
        <Device>1</Device>
        <Unit>W</Unit>
        <Quantity>Power</Quantity>
        <Value>0.000000</Value>
    </DataRecord>

    <DataRecord id=""18"">
        <Function>Instantaneous value</Function>
        <StorageNumber>6</StorageNumber>
        <Tariff>0</Tariff>
        <Device>1</Device>
        <Unit>W</Unit>
        <Quantity>Power</Quantity>
        <Value>0.000000</Value>
    </DataRecord>

    <DataRecord id=""19"">
        <Function>Instantaneous value</Function>
        <StorageNumber>8</StorageNumber>
        <Tariff>0</Tariff>
        <Device>1</Device>
        <Unit>W</Unit>
        <Quantity>Power</Quantity>
        <Value>202.000000</Value>
    </DataRecord>

</MBusData>
")%list = (true, true).
Proof. vm_compute. reflexivity. Qed.

(** itron_bm_+m *)
Example frame_37 : agrees
  (txt "68 3C 3C 68 08 08 72 78 03 49 11 77 04 0E 16 29 00 00 00 0C 78 78 03 49 11 04 13 31 D4 00 00 42 6C 00 00 44 13 00 00 00 00 04 6D 1D 0D 98 11 02 27 00 00 09 FD 0E 02 09 FD 0F 06 0F 00 00 8F 13 E8 16 
")%list
  (txt "<?xml version=""1.0"" encoding=""ISO-8859-1""?>
<MBusData>

    <SlaveInformation>
        <Id>11490378</Id>
        <Manufacturer>ACW</Manufacturer>
        <Version>14</Version>
        <ProductName>Itron BM +m</ProductName>
        <Medium>Cold water</Medium>
        <AccessNumber>41</AccessNumber>
        <Status>00</Status>
        <Signature>0000</Signature>
    </SlaveInformation>

    <DataRecord id=""0"">
        <Function>Instantaneous value</Function>
        <StorageNumber>0</StorageNumber>
        <Unit></Unit>
        <Quantity>Fabrication No</Quantity>
        <Value>11490378.000000</Value>
    </DataRecord>

    <DataRecord id=""1"">
        <Function>Instantaneous value</Function>
        <StorageNumber>0</StorageNumber>
        <Unit>m^3</Unit>
        <Quantity>Volume</Quantity>
        <Value>54.321000</Value>
    </DataRecord>

    <DataRecord id=""2"">
        <Function>Instantaneous value</Function>
        <StorageNumber>1</StorageNumber>
        <Unit>-</Unit>
        <Quantity>Time point (date)</Quantity>
        <Value>2000-00-00</Value>
    </DataRecord>

    <DataRecord id=""3"">
        <Function>Instantaneous value</Function>
        <StorageNumber>1</StorageNumber>
        <Unit>m^3</Unit>
        <Quantity>Volume</Quantity>
        <Value>0.000000</Value>
    </DataRecord>

    <DataRecord id=""4"">
        <Function>Instantaneous value</Function>
        <StorageNumber>0</StorageNumber>
        <Unit>-</Unit>
        <Quantity>Time point (date &amp; time)</Quantity>
        <Value>2012-01-24T13:29:00Z</Value>
    </DataRecord>

    <DataRecord id=""5"">
        <Function>Instantaneous value</Function>
        <StorageNumber>0</StorageNumber>
        <Unit>s</Unit>
        <Quantity>Operating time</Quantity>
        <Value>0.000000</Value>
    </DataRecord>

    <DataRecord id=""6"">
        <Function>Instantaneous value</Function>
        <StorageNumber>0</StorageNumber>
        <Unit></Unit>
        <Quantity>Firmware version</Quantity>
        <Value>2.000000</Value>
    </DataRecord>

    <DataRecord id=""7"">
        <Function>Instantaneous value</Function>
        <StorageNumber>0</StorageNumber>
        <Unit></Unit>
        <Quantity>Software version</Quantity>
        <Value>6.000000</Value>
    </DataRecord>

    <DataRecord id=""8"">
        <Function>Manufacturer specific</Function>
        <StorageNumber>0</StorageNumber>
        <Unit></Unit>
        <Quantity></Quantity>
        <Value>00 00 8F 13</Value>
    </DataRecord>

</MBusData>
")%list = (true, true).
Proof. vm_compute. reflexivity. Qed.

(** itron_cf_51 *)
Example frame_38 : agrees
  (txt "68 64 64 68 08 06 72 85 51 15 11 77 04 0A 0D 1B 10 00 00 0C 78 85 51 15 11 04 06 00 00 00 00 0C 14 00 00 00 00 3B 2D 99 99 99 0B 3B 00 00 00 3A 5A 99 99 3A 5E 99 99 3B 61 99 99 99 04 6D 18 0D 98 11 02 27 68 00 09 FD 0E 11 09 FD 0F 26 8C C0 00 16 21 03 00 00 8C 80 40 14 23 01 00 00 04 86 3C 00 00 00 00 0F 03 20 85 16

")%list
  (txt "<?xml version=""1.0"" encoding=""ISO-8859-1""?>
<MBusData>

    <SlaveInformation>
        <Id>11155185</Id>
        <Manufacturer>ACW</Manufacturer>
        <Version>10</Version>
        <ProductName>Itron CF 51</ProductName>
        <Medium>Heat / Cooling load meter</Medium>
        <AccessNumber>27</AccessNumber>
        <Status>10</Status>
        <Signature>0000</Signature>
    </SlaveInformation>

    <DataRecord id=""0"">
        <Function>Instantaneous value</Function>
        <StorageNumber>0</StorageNumber>
        <Unit></Unit>
        <Quantity>Fabrication No</Quantity>
        <Value>11155185.000000</Value>
    </DataRecord>

    <DataRecord id=""1"">
        <Function>Instantaneous value</Function>
        <StorageNumber>0</StorageNumber>
        <Unit>Wh</Unit>
        <Quantity>Energy</Quantity>
        <Value>0.000000</Value>
    </DataRecord>

    <DataRecord id=""2"">
        <Function>Instantaneous value</Function>
        <StorageNumber>0</StorageNumber>
        <Unit>m^3</Unit>
        <Quantity>Volume</Quantity>
        <Value>0.000000</Value>
    </DataRecord>

    <DataRecord id=""3"">
        <Function>Value during error state</Function>
        <StorageNumber>0</StorageNumber>
        <Unit>W</Unit>
        <Quantity>Power</Quantity>
        <Value>99999900.000000</Value>
    </DataRecord>

    <DataRecord id=""4"">
        <Function>Instantaneous value</Function>
        <StorageNumber>0</StorageNumber>
        <Unit>m^3/h</Unit>
        <Quantity>Volume flow</Quantity>
        <Value>0.000000</Value>
    </DataRecord>

    <DataRecord id=""5"">
        <Function>Value during error state</Function>
        <StorageNumber>0</StorageNumber>
        <Unit>" ++ [176] ++ txt "C</Unit>
        <Quantity>Flow temperature</Quantity>
        <Value>999.900000</Value>
    </DataRecord>

    <DataRecord id=""6"">
        <Function>Value during error state</Function>
        <StorageNumber>0</StorageNumber>
        <Unit>" ++ [176] ++ txt "C</Unit>
        <Quantity>Return temperature</Quantity>
        <Value>999.900000</Value>
    </DataRecord>

    <DataRecord id=""7"">
        <Function>Value during error state</Function>
        <StorageNumber>0</StorageNumber>
        <Unit>K</Unit>
        <Quantity>Temperature difference</Quantity>
        <Value>9999.990000</Value>
    </DataRecord>

    <DataRecord id=""8"">
        <Function>Instantaneous value</Function>
        <StorageNumber>0</StorageNumber>
        <Unit>-</Unit>
        <Quantity>Time point (date &amp; time)</Quantity>
        <Value>2012-01-24T13:24:00Z</Value>
    </DataRecord>

    <DataRecord id=""9"">
        <Function>Instantaneous value</Function>
        <StorageNumber>0</StorageNumber>
        <Unit>s</Unit>
        <Quantity>Operating time</Quantity>
        <Value>8985600.000000</Value>
    </DataRecord>

    <DataRecord id=""10"">
        <Function>Instantaneous value</Function>
        <StorageNumber>0</StorageNumber>
        <Unit></Unit>
        <Quantity>Firmware version</Quantity>
        <Value>11.000000</Value>
    </DataRecord>

    <DataRecord id=""11"">
        <Function>Instantaneous value</Function>
        <StorageNumber>0</StorageNumber>
        <Unit></Unit>
        <Quantity>Software version</Quantity>
        <Value>26.000000</Value>
    </DataRecord>

    <DataRecord id=""12"">
        <Function>Instantaneous value</Function>
        <StorageNumber>0</StorageNumber>
        <Tariff>0</Tariff>
        <Device>1</Device>
        <Unit>m^3</Unit>
        <Quantity>Volume</Quantity>
        <Value>321.000000</Value>
    </DataRecord>

    <DataRecord id=""13"">
        <Function>Instantaneous value</Function>
        <StorageNumber>0</StorageNumber>
        <Tariff>0</Tariff>
        <Device>2</Device>
        <Unit>m^3</Unit>
        <Quantity>Volume</Quantity>
        <Value>1.230000</Value>
    </DataRecord>

    <DataRecord id=""14"">
        <Function>Instantaneous value</Function>
        <StorageNumber>0</StorageNumber>
        <Unit>Wh</Unit>
        <Quantity>Energy</Quantity>
        <Value>0.000000</Value>
    </DataRecord>

    <DataRecord id=""15"">
        <Function>Manufacturer specific</Function>
        <StorageNumber>0</StorageNumber>
        <Unit></Unit>
        <Quantity></Quantity>
        <Value>03 20</Value>
    </DataRecord>

</MBusData>
")%list = (true, true).
Proof. vm_compute. reflexivity. Qed.

(** itron_cf_55 *)
Example frame_39 : agrees
  (txt "68 4D 4D 68 08 07 72 67 76 12 11 77 04 0B 0C 0B 10 00 00 0C 78 67 76 12 11 04 07 00 00 00 00 0C 16 00 00 00 00 3B 2D 99 99 99 0B 3B 00 00 00 3A 5A 99 99 3A 5E 99 99 3B 61 99 99 99 04 6D 2F 0B 98 11 02 27 FC 00 09 FD 0E 10 09 FD 0F 21 0F 03 20 54 16

")%list
  (txt "<?xml version=""1.0"" encoding=""ISO-8859-1""?>
<MBusData>

    <SlaveInformation>
        <Id>11127667</Id>
        <Manufacturer>ACW</Manufacturer>
        <Version>11</Version>
        <ProductName>Itron CF 55</ProductName>
        <Medium>Heat: Inlet</Medium>
        <AccessNumber>11</AccessNumber>
        <Status>10</Status>
        <Signature>0000</Signature>
    </SlaveInformation>

    <DataRecord id=""0"">
        <Function>Instantaneous value</Function>
        <StorageNumber>0</StorageNumber>
        <Unit></Unit>
        <Quantity>Fabrication No</Quantity>
        <Value>11127667.000000</Value>
    </DataRecord>

    <DataRecord id=""1"">
        <Function>Instantaneous value</Function>
        <StorageNumber>0</StorageNumber>
        <Unit>Wh</Unit>
        <Quantity>Energy</Quantity>
        <Value>0.000000</Value>
    </DataRecord>

    <DataRecord id=""2"">
        <Function>Instantaneous value</Function>
        <StorageNumber>0</StorageNumber>
        <Unit>m^3</Unit>
        <Quantity>Volume</Quantity>
        <Value>0.000000</Value>
    </DataRecord>

    <DataRecord id=""3"">
        <Function>Value during error state</Function>
        <StorageNumber>0</StorageNumber>
        <Unit>W</Unit>
        <Quantity>Power</Quantity>
        <Value>99999900.000000</Value>
    </DataRecord>

    <DataRecord id=""4"">
        <Function>Instantaneous value</Function>
        <StorageNumber>0</StorageNumber>
        <Unit>m^3/h</Unit>
        <Quantity>Volume flow</Quantity>
        <Value>0.000000</Value>
    </DataRecord>

    <DataRecord id=""5"">
        <Function>Value during error state</Function>
        <StorageNumber>0</StorageNumber>
        <Unit>" ++ [176] ++ txt "C</Unit>
        <Quantity>Flow temperature</Quantity>
        <Value>999.900000</Value>
    </DataRecord>

    <DataRecord id=""6"">
        <Function>Value during error state</Function>
        <StorageNumber>0</StorageNumber>
        <Unit>" ++ [176] ++ txt "C</Unit>
        <Quantity>Return temperature</Quantity>
        <Value>999.900000</Value>
    </DataRecord>

    <DataRecord id=""7"">
        <Function>Value during error state</Function>
        <StorageNumber>0</StorageNumber>
        <Unit>K</Unit>
        <Quantity>Temperature difference</Quantity>
        <Value>9999.990000</Value>
    </DataRecord>

    <DataRecord id=""8"">
        <Function>Instantaneous value</Function>
        <StorageNumber>0</StorageNumber>
        <Unit>-</Unit>
        <Quantity>Time point (date &amp; time)</Quantity>
        <Value>2012-01-24T11:47:00Z</Value>
    </DataRecord>

    <DataRecord id=""9"">
        <Function>Instantaneous value</Function>
        <StorageNumber>0</StorageNumber>
        <Unit>s</Unit>
        <Quantity>Operating time</Quantity>
        <Value>21772800.000000</Value>
    </DataRecord>

    <DataRecord id=""10"">
        <Function>Instantaneous value</Function>
        <StorageNumber>0</StorageNumber>
        <Unit></Unit>
        <Quantity>Firmware version</Quantity>
        <Value>10.000000</Value>
    </DataRecord>

    <DataRecord id=""11"">
        <Function>Instantaneous value</Function>
        <StorageNumber>0</StorageNumber>
        <Unit></Unit>
        <Quantity>Software version</Quantity>
        <Value>21.000000</Value>
    </DataRecord>

    <DataRecord id=""12"">
        <Function>Manufacturer specific</Function>
        <StorageNumber>0</StorageNumber>
        <Unit></Unit>
        <Quantity></Quantity>
        <Value>03 20</Value>
    </DataRecord>

</MBusData>
")%list = (true, true).
Proof. vm_compute. reflexivity. Qed.

(** itron_cf_echo_2 *)
Example frame_40 : agrees
  (txt "68 4D 4D 68 08 09 72 91 00 10 11 77 04 09 04 51 10 00 00 0C 78 91 00 10 11 04 06 00 00 00 00 0C 14 00 00 00 00 3B 2D 99 99 99 3B 3B 99 99 99 0A 5A 05 02 0A 5E 06 02 0B 61 09 00 00 04 6D 1D 0D 98 11 02 27 81 01 09 FD 0E 19 09 FD 0F 45 0F 20 00 E7 16")%list
  (txt "<?xml version=""1.0"" encoding=""ISO-8859-1""?>
<MBusData>

    <SlaveInformation>
        <Id>11100091</Id>
        <Manufacturer>ACW</Manufacturer>
        <Version>9</Version>
        <ProductName>Itron CF Echo 2</ProductName>
        <Medium>Heat: Outlet</Medium>
        <AccessNumber>81</AccessNumber>
        <Status>10</Status>
        <Signature>0000</Signature>
    </SlaveInformation>

    <DataRecord id=""0"">
        <Function>Instantaneous value</Function>
        <StorageNumber>0</StorageNumber>
        <Unit></Unit>
        <Quantity>Fabrication No</Quantity>
        <Value>11100091.000000</Value>
    </DataRecord>

    <DataRecord id=""1"">
        <Function>Instantaneous value</Function>
        <StorageNumber>0</StorageNumber>
        <Unit>Wh</Unit>
        <Quantity>Energy</Quantity>
        <Value>0.000000</Value>
    </DataRecord>

    <DataRecord id=""2"">
        <Function>Instantaneous value</Function>
        <StorageNumber>0</StorageNumber>
        <Unit>m^3</Unit>
        <Quantity>Volume</Quantity>
        <Value>0.000000</Value>
    </DataRecord>

    <DataRecord id=""3"">
        <Function>Value during error state</Function>
        <StorageNumber>0</StorageNumber>
        <Unit>W</Unit>
        <Quantity>Power</Quantity>
        <Value>99999900.000000</Value>
    </DataRecord>

    <DataRecord id=""4"">
        <Function>Value during error state</Function>
        <StorageNumber>0</StorageNumber>
        <Unit>m^3/h</Unit>
        <Quantity>Volume flow</Quantity>
        <Value>999.999000</Value>
    </DataRecord>

    <DataRecord id=""5"">
        <Function>Instantaneous value</Function>
        <StorageNumber>0</StorageNumber>
        <Unit>" ++ [176] ++ txt "C</Unit>
        <Quantity>Flow temperature</Quantity>
        <Value>20.500000</Value>
    </DataRecord>

    <DataRecord id=""6"">
        <Function>Instantaneous value</Function>
        <StorageNumber>0</StorageNumber>
        <Unit>" ++ [176] ++ txt "C</Unit>
        <Quantity>Return temperature</Quantity>
        <Value>20.600000</Value>
    </DataRecord>

    <DataRecord id=""7"">
        <Function>Instantaneous value</Function>
        <StorageNumber>0</StorageNumber>
        <Unit>K</Unit>
        <Quantity>Temperature difference</Quantity>
        <Value>0.090000</Value>
    </DataRecord>

    <DataRecord id=""8"">
        <Function>Instantaneous value</Function>
        <StorageNumber>0</StorageNumber>
        <Unit>-</Unit>
        <Quantity>Time point (date &amp; time)</Quantity>
        <Value>2012-01-24T13:29:00Z</Value>
    </DataRecord>

    <DataRecord id=""9"">
        <Function>Instantaneous value</Function>
        <StorageNumber>0</StorageNumber>
        <Unit>s</Unit>
        <Quantity>Operating time</Quantity>
        <Value>33264000.000000</Value>
    </DataRecord>

    <DataRecord id=""10"">
        <Function>Instantaneous value</Function>
        <StorageNumber>0</StorageNumber>
        <Unit></Unit>
        <Quantity>Firmware version</Quantity>
        <Value>19.000000</Value>
    </DataRecord>

    <DataRecord id=""11"">
        <Function>Instantaneous value</Function>
        <StorageNumber>0</StorageNumber>
        <Unit></Unit>
        <Quantity>Software version</Quantity>
        <Value>45.000000</Value>
    </DataRecord>

    <DataRecord id=""12"">
        <Function>Manufacturer specific</Function>
        <StorageNumber>0</StorageNumber>
        <Unit></Unit>
        <Quantity></Quantity>
        <Value>20 00</Value>
    </DataRecord>

</MBusData>
")%list = (true, true).
Proof. vm_compute. reflexivity. Qed.

(** itron_cyble_m-bus_v1.4_cold_water *)
Example frame_41 : agrees
  (txt "68 56 56 68 08 08 72 80 03 02 10 77 04 14 16 A1 00 00 00 0C 78 80 03 02 10 0D 7C 08 44 49 20 2E 74 73 75 63 0A 20 20 20 20 20 20 20 20 20 20 04 6D 27 0F 79 1A 02 7C 09 65 6D 69 74 20 2E 74 61 62 D2 0F 04 15 B7 11 00 00 04 95 7F 00 00 00 00 44 15 B7 11 00 00 0F 00 04 1F 0D 16")%list
  (txt "<?xml version=""1.0"" encoding=""ISO-8859-1""?>
<MBusData>

    <SlaveInformation>
        <Id>10020380</Id>
        <Manufacturer>ACW</Manufacturer>
        <Version>20</Version>
        <ProductName>Itron CYBLE M-Bus 1.4</ProductName>
        <Medium>Cold water</Medium>
        <AccessNumber>161</AccessNumber>
        <Status>00</Status>
        <Signature>0000</Signature>
    </SlaveInformation>

    <DataRecord id=""0"">
        <Function>Instantaneous value</Function>
        <StorageNumber>0</StorageNumber>
        <Unit></Unit>
        <Quantity>Fabrication No</Quantity>
        <Value>10020380.000000</Value>
    </DataRecord>

    <DataRecord id=""1"">
        <Function>Instantaneous value</Function>
        <StorageNumber>0</StorageNumber>
        <Unit>-</Unit>
        <Quantity>cust. ID</Quantity>
        <Value>          </Value>
    </DataRecord>

    <DataRecord id=""2"">
        <Function>Instantaneous value</Function>
        <StorageNumber>0</StorageNumber>
        <Unit>-</Unit>
        <Quantity>Time point (date &amp; time)</Quantity>
        <Value>2011-10-25T15:39:00Z</Value>
    </DataRecord>

    <DataRecord id=""3"">
        <Function>Instantaneous value</Function>
        <StorageNumber>0</StorageNumber>
        <Unit>-</Unit>
        <Quantity>bat. time</Quantity>
        <Value>4050.000000</Value>
    </DataRecord>

    <DataRecord id=""4"">
        <Function>Instantaneous value</Function>
        <StorageNumber>0</StorageNumber>
        <Unit>m^3</Unit>
        <Quantity>Volume</Quantity>
        <Value>453.500000</Value>
    </DataRecord>

    <DataRecord id=""5"">
        <Function>Instantaneous value</Function>
        <StorageNumber>0</StorageNumber>
        <Unit>m^3</Unit>
        <Quantity>Volume</Quantity>
        <Value>0.000000</Value>
    </DataRecord>

    <DataRecord id=""6"">
        <Function>Instantaneous value</Function>
        <StorageNumber>1</StorageNumber>
        <Unit>m^3</Unit>
        <Quantity>Volume</Quantity>
        <Value>453.500000</Value>
    </DataRecord>

    <DataRecord id=""7"">
        <Function>Manufacturer specific</Function>
        <StorageNumber>0</StorageNumber>
        <Unit></Unit>
        <Quantity></Quantity>
        <Value>00 04 1F</Value>
    </DataRecord>

</MBusData>
")%list = (false, true).
Proof. vm_compute. reflexivity. Qed.

(** itron_cyble_m-bus_v1.4_gas *)
Example frame_42 : agrees
  (txt "68 56 56 68 08 04 72 87 03 02 10 77 04 14 03 9A 00 00 00 0C 78 87 03 02 10 0D 7C 08 44 49 20 2E 74 73 75 63 0A 20 20 20 20 20 20 20 20 20 20 04 6D 2B 0F 79 1A 02 7C 09 65 6D 69 74 20 2E 74 61 62 D2 0F 04 14 1A 00 00 00 04 94 7F 00 00 00 00 44 14 19 00 00 00 0F 00 02 1F 9F 16")%list
  (txt "<?xml version=""1.0"" encoding=""ISO-8859-1""?>
<MBusData>

    <SlaveInformation>
        <Id>10020387</Id>
        <Manufacturer>ACW</Manufacturer>
        <Version>20</Version>
        <ProductName>Itron CYBLE M-Bus 1.4</ProductName>
        <Medium>Gas</Medium>
        <AccessNumber>154</AccessNumber>
        <Status>00</Status>
        <Signature>0000</Signature>
    </SlaveInformation>

    <DataRecord id=""0"">
        <Function>Instantaneous value</Function>
        <StorageNumber>0</StorageNumber>
        <Unit></Unit>
        <Quantity>Fabrication No</Quantity>
        <Value>10020387.000000</Value>
    </DataRecord>

    <DataRecord id=""1"">
        <Function>Instantaneous value</Function>
        <StorageNumber>0</StorageNumber>
        <Unit>-</Unit>
        <Quantity>cust. ID</Quantity>
        <Value>          </Value>
    </DataRecord>

    <DataRecord id=""2"">
        <Function>Instantaneous value</Function>
        <StorageNumber>0</StorageNumber>
        <Unit>-</Unit>
        <Quantity>Time point (date &amp; time)</Quantity>
        <Value>2011-10-25T15:43:00Z</Value>
    </DataRecord>

    <DataRecord id=""3"">
        <Function>Instantaneous value</Function>
        <StorageNumber>0</StorageNumber>
        <Unit>-</Unit>
        <Quantity>bat. time</Quantity>
        <Value>4050.000000</Value>
    </DataRecord>

    <DataRecord id=""4"">
        <Function>Instantaneous value</Function>
        <StorageNumber>0</StorageNumber>
        <Unit>m^3</Unit>
        <Quantity>Volume</Quantity>
        <Value>0.260000</Value>
    </DataRecord>

    <DataRecord id=""5"">
        <Function>Instantaneous value</Function>
        <StorageNumber>0</StorageNumber>
        <Unit>m^3</Unit>
        <Quantity>Volume</Quantity>
        <Value>0.000000</Value>
    </DataRecord>

    <DataRecord id=""6"">
        <Function>Instantaneous value</Function>
        <StorageNumber>1</StorageNumber>
        <Unit>m^3</Unit>
        <Quantity>Volume</Quantity>
        <Value>0.250000</Value>
    </DataRecord>

    <DataRecord id=""7"">
        <Function>Manufacturer specific</Function>
        <StorageNumber>0</StorageNumber>
        <Unit></Unit>
        <Quantity></Quantity>
        <Value>00 02 1F</Value>
    </DataRecord>

</MBusData>
")%list = (false, true).
Proof. vm_compute. reflexivity. Qed.

(** itron_cyble_m-bus_v1.4_water *)
Example frame_43 : agrees
  (txt "68 56 56 68 08 01 72 71 00 00 12 77 04 14 07 0A 30 00 00 0C 78 71 00 00 12 0D 7C 08 44 49 20 2E 74 73 75 63 0A 45 4C 42 59 43 20 54 53 45 54 04 6D 2B 0D 98 11 02 7C 09 65 6D 69 74 20 2E 74 61 62 F2 10 04 14 3D 30 00 00 04 94 7F 14 00 00 00 44 14 00 00 00 00 0F 10 01 1F 2F 16

")%list
  (txt "<?xml version=""1.0"" encoding=""ISO-8859-1""?>
<MBusData>

    <SlaveInformation>
        <Id>12000071</Id>
        <Manufacturer>ACW</Manufacturer>
        <Version>20</Version>
        <ProductName>Itron CYBLE M-Bus 1.4</ProductName>
        <Medium>Water</Medium>
        <AccessNumber>10</AccessNumber>
        <Status>30</Status>
        <Signature>0000</Signature>
    </SlaveInformation>

    <DataRecord id=""0"">
        <Function>Instantaneous value</Function>
        <StorageNumber>0</StorageNumber>
        <Unit></Unit>
        <Quantity>Fabrication No</Quantity>
        <Value>12000071.000000</Value>
    </DataRecord>

    <DataRecord id=""1"">
        <Function>Instantaneous value</Function>
        <StorageNumber>0</StorageNumber>
        <Unit>-</Unit>
        <Quantity>cust. ID</Quantity>
        <Value>TEST CYBLE</Value>
    </DataRecord>

    <DataRecord id=""2"">
        <Function>Instantaneous value</Function>
        <StorageNumber>0</StorageNumber>
        <Unit>-</Unit>
        <Quantity>Time point (date &amp; time)</Quantity>
        <Value>2012-01-24T13:43:00Z</Value>
    </DataRecord>

    <DataRecord id=""3"">
        <Function>Instantaneous value</Function>
        <StorageNumber>0</StorageNumber>
        <Unit>-</Unit>
        <Quantity>bat. time</Quantity>
        <Value>4338.000000</Value>
    </DataRecord>

    <DataRecord id=""4"">
        <Function>Instantaneous value</Function>
        <StorageNumber>0</StorageNumber>
        <Unit>m^3</Unit>
        <Quantity>Volume</Quantity>
        <Value>123.490000</Value>
    </DataRecord>

    <DataRecord id=""5"">
        <Function>Instantaneous value</Function>
        <StorageNumber>0</StorageNumber>
        <Unit>m^3</Unit>
        <Quantity>Volume</Quantity>
        <Value>0.200000</Value>
    </DataRecord>

    <DataRecord id=""6"">
        <Function>Instantaneous value</Function>
        <StorageNumber>1</StorageNumber>
        <Unit>m^3</Unit>
        <Quantity>Volume</Quantity>
        <Value>0.000000</Value>
    </DataRecord>

    <DataRecord id=""7"">
        <Function>Manufacturer specific</Function>
        <StorageNumber>0</StorageNumber>
        <Unit></Unit>
        <Quantity></Quantity>
        <Value>10 01 1F</Value>
    </DataRecord>

</MBusData>
")%list = (false, true).
Proof. vm_compute. reflexivity. Qed.

(** itron_integral_mk_maxx *)
Example frame_44 : agrees
  (txt "68 5C 5C 68 08 04 72 14 73 81 11 82 4D 06 04 5D 00 00 00 0C 78 14 73 81 11 0C 06 00 00 00 00 0C 14 02 00 00 00 0A 3B 00 00 0B 5A 12 02 00 0B 5E 11 02 00 0B 61 07 00 00 32 26 00 00 02 27 8D 01 04 6D 11 0E 98 11 84 40 14 7B 00 00 00 84 80 40 14 41 01 00 00 09 FD 0E 03 09 FD 0F 18 0F 00 16 E9 16                          
")%list
  (txt "<?xml version=""1.0"" encoding=""ISO-8859-1""?>
<MBusData>

    <SlaveInformation>
        <Id>11817314</Id>
        <Manufacturer>SLB</Manufacturer>
        <Version>6</Version>
        <ProductName>CF Compact / Integral MK MaXX</ProductName>
        <Medium>Heat: Outlet</Medium>
        <AccessNumber>93</AccessNumber>
        <Status>00</Status>
        <Signature>0000</Signature>
    </SlaveInformation>

    <DataRecord id=""0"">
        <Function>Instantaneous value</Function>
        <StorageNumber>0</StorageNumber>
        <Unit></Unit>
        <Quantity>Fabrication No</Quantity>
        <Value>11817314.000000</Value>
    </DataRecord>

    <DataRecord id=""1"">
        <Function>Instantaneous value</Function>
        <StorageNumber>0</StorageNumber>
        <Unit>Wh</Unit>
        <Quantity>Energy</Quantity>
        <Value>0.000000</Value>
    </DataRecord>

    <DataRecord id=""2"">
        <Function>Instantaneous value</Function>
        <StorageNumber>0</StorageNumber>
        <Unit>m^3</Unit>
        <Quantity>Volume</Quantity>
        <Value>0.020000</Value>
    </DataRecord>

    <DataRecord id=""3"">
        <Function>Instantaneous value</Function>
        <StorageNumber>0</StorageNumber>
        <Unit>m^3/h</Unit>
        <Quantity>Volume flow</Quantity>
        <Value>0.000000</Value>
    </DataRecord>

    <DataRecord id=""4"">
        <Function>Instantaneous value</Function>
        <StorageNumber>0</StorageNumber>
        <Unit>" ++ [176] ++ txt "C</Unit>
        <Quantity>Flow temperature</Quantity>
        <Value>21.200000</Value>
    </DataRecord>

    <DataRecord id=""5"">
        <Function>Instantaneous value</Function>
        <StorageNumber>0</StorageNumber>
        <Unit>" ++ [176] ++ txt "C</Unit>
        <Quantity>Return temperature</Quantity>
        <Value>21.100000</Value>
    </DataRecord>

    <DataRecord id=""6"">
        <Function>Instantaneous value</Function>
        <StorageNumber>0</StorageNumber>
        <Unit>K</Unit>
        <Quantity>Temperature difference</Quantity>
        <Value>0.070000</Value>
    </DataRecord>

    <DataRecord id=""7"">
        <Function>Value during error state</Function>
        <StorageNumber>0</StorageNumber>
        <Unit>s</Unit>
        <Quantity>Operating time</Quantity>
        <Value>0.000000</Value>
    </DataRecord>

    <DataRecord id=""8"">
        <Function>Instantaneous value</Function>
        <StorageNumber>0</StorageNumber>
        <Unit>s</Unit>
        <Quantity>Operating time</Quantity>
        <Value>34300800.000000</Value>
    </DataRecord>

    <DataRecord id=""9"">
        <Function>Instantaneous value</Function>
        <StorageNumber>0</StorageNumber>
        <Unit>-</Unit>
        <Quantity>Time point (date &amp; time)</Quantity>
        <Value>2012-01-24T14:17:00Z</Value>
    </DataRecord>

    <DataRecord id=""10"">
        <Function>Instantaneous value</Function>
        <StorageNumber>0</StorageNumber>
        <Tariff>0</Tariff>
        <Device>1</Device>
        <Unit>m^3</Unit>
        <Quantity>Volume</Quantity>
        <Value>1.230000</Value>
    </DataRecord>

    <DataRecord id=""11"">
        <Function>Instantaneous value</Function>
        <StorageNumber>0</StorageNumber>
        <Tariff>0</Tariff>
        <Device>2</Device>
        <Unit>m^3</Unit>
        <Quantity>Volume</Quantity>
        <Value>3.210000</Value>
    </DataRecord>

    <DataRecord id=""12"">
        <Function>Instantaneous value</Function>
        <StorageNumber>0</StorageNumber>
        <Unit></Unit>
        <Quantity>Firmware version</Quantity>
        <Value>3.000000</Value>
    </DataRecord>

    <DataRecord id=""13"">
        <Function>Instantaneous value</Function>
        <StorageNumber>0</StorageNumber>
        <Unit></Unit>
        <Quantity>Software version</Quantity>
        <Value>18.000000</Value>
    </DataRecord>

    <DataRecord id=""14"">
        <Function>Manufacturer specific</Function>
        <StorageNumber>0</StorageNumber>
        <Unit></Unit>
        <Quantity></Quantity>
        <Value>00 16</Value>
    </DataRecord>

</MBusData>
")%list = (true, true).
Proof. vm_compute. reflexivity. Qed.

(** kamstrup_382_005 *)
Example frame_45 : agrees
  (txt "68 46 46 68 08 78 72 20 91 83 14 2D 2C 01 02 04 00 00 00 04 06 00 00 00 00 04 22 09 00 00 00 04 2B 00 00 00 00 14 2B 00 00 00 00 84 50 06 00 00 00 00 84 60 06 00 00 00 00 0F 00 00 00 00 00 00 00 00 00 00 00 00 00 00 00 10 24 16")%list
  (txt "<?xml version=""1.0"" encoding=""ISO-8859-1""?>
<MBusData>

    <SlaveInformation>
        <Id>14839120</Id>
        <Manufacturer>KAM</Manufacturer>
        <Version>1</Version>
        <ProductName>Kamstrup 382 (6850-005)</ProductName>
        <Medium>Electricity</Medium>
        <AccessNumber>4</AccessNumber>
        <Status>00</Status>
        <Signature>0000</Signature>
    </SlaveInformation>

    <DataRecord id=""0"">
        <Function>Instantaneous value</Function>
        <StorageNumber>0</StorageNumber>
        <Unit>Wh</Unit>
        <Quantity>Energy</Quantity>
        <Value>0.000000</Value>
    </DataRecord>

    <DataRecord id=""1"">
        <Function>Instantaneous value</Function>
        <StorageNumber>0</StorageNumber>
        <Unit>s</Unit>
        <Quantity>On time</Quantity>
        <Value>32400.000000</Value>
    </DataRecord>

    <DataRecord id=""2"">
        <Function>Instantaneous value</Function>
        <StorageNumber>0</StorageNumber>
        <Unit>W</Unit>
        <Quantity>Power</Quantity>
        <Value>0.000000</Value>
    </DataRecord>

    <DataRecord id=""3"">
        <Function>Maximum value</Function>
        <StorageNumber>0</StorageNumber>
        <Unit>W</Unit>
        <Quantity>Power</Quantity>
        <Value>0.000000</Value>
    </DataRecord>

    <DataRecord id=""4"">
        <Function>Instantaneous value</Function>
        <StorageNumber>0</StorageNumber>
        <Tariff>1</Tariff>
        <Device>1</Device>
        <Unit>Wh</Unit>
        <Quantity>Energy</Quantity>
        <Value>0.000000</Value>
    </DataRecord>

    <DataRecord id=""5"">
        <Function>Instantaneous value</Function>
        <StorageNumber>0</StorageNumber>
        <Tariff>2</Tariff>
        <Device>1</Device>
        <Unit>Wh</Unit>
        <Quantity>Energy</Quantity>
        <Value>0.000000</Value>
    </DataRecord>

    <DataRecord id=""6"">
        <Function>Manufacturer specific</Function>
        <StorageNumber>0</StorageNumber>
        <Unit></Unit>
        <Quantity></Quantity>
        <Value>00 00 00 00 00 00 00 00 00 00 00 00 00 00 00 10</Value>
    </DataRecord>

</MBusData>
")%list = (true, true).
Proof. vm_compute. reflexivity. Qed.

(** kamstrup_multical_601 *)
Example frame_46 : agrees
  (txt "68 F7 F7 68 08 11 72 17 58 85 06 2D 2C 08 04 04 00 00 00 0C 78 17 58 85 06 04 06 E7 91 00 00 04 14 2C DB 00 00 04 22 D9 03 00 00 04 59 B9 27 00 00 04 5D 08 12 00 00 04 61 B1 15 00 00 04 2D 5B 01 00 00 14 2D C0 01 00 00 04 3B 1F 02 00 00 14 3B 74 02 00 00 84 10 06 00 00 00 00 84 20 06 00 00 00 00 84 40 14 00 00 00 00 84 80 40 14 00 00 00 00 84 C0 40 06 00 00 00 00 04 6D 1A 2F 65 11 44 06 51 82 00 00 44 14 B2 C3 00 00 54 2D 26 02 00 00 54 3B 03 04 00 00 C4 10 06 00 00 00 00 C4 20 06 00 00 00 00 C4 40 14 00 00 00 00 C4 80 40 14 00 00 00 00 C4 C0 40 06 00 00 00 00 42 6C 5F 1C 0F 00 00 00 00 E7 E4 00 00 63 66 00 00 00 00 00 00 00 00 00 00 00 00 00 00 5B C9 A5 02 34 53 00 00 E0 B2 03 00 89 9C 68 00 00 00 00 00 01 00 01 07 07 09 01 03 00 00 00 00 00 98 16
")%list
  (txt "<?xml version=""1.0"" encoding=""ISO-8859-1""?>
<MBusData>

    <SlaveInformation>
        <Id>6855817</Id>
        <Manufacturer>KAM</Manufacturer>
        <Version>8</Version>
        <ProductName>Kamstrup Multical 601</ProductName>
        <Medium>Heat: Outlet</Medium>
        <AccessNumber>4</AccessNumber>
        <Status>00</Status>
        <Signature>0000</Signature>
    </SlaveInformation>

    <DataRecord id=""0"">
        <Function>Instantaneous value</Function>
        <StorageNumber>0</StorageNumber>
        <Unit></Unit>
        <Quantity>Fabrication No</Quantity>
        <Value>6855817.000000</Value>
    </DataRecord>

    <DataRecord id=""1"">
        <Function>Instantaneous value</Function>
        <StorageNumber>0</StorageNumber>
        <Unit>Wh</Unit>
        <Quantity>Energy</Quantity>
        <Value>37351000.000000</Value>
    </DataRecord>

    <DataRecord id=""2"">
        <Function>Instantaneous value</Function>
        <StorageNumber>0</StorageNumber>
        <Unit>m^3</Unit>
        <Quantity>Volume</Quantity>
        <Value>561.080000</Value>
    </DataRecord>

    <DataRecord id=""3"">
        <Function>Instantaneous value</Function>
        <StorageNumber>0</StorageNumber>
        <Unit>s</Unit>
        <Quantity>On time</Quantity>
        <Value>3546000.000000</Value>
    </DataRecord>

    <DataRecord id=""4"">
        <Function>Instantaneous value</Function>
        <StorageNumber>0</StorageNumber>
        <Unit>" ++ [176] ++ txt "C</Unit>
        <Quantity>Flow temperature</Quantity>
        <Value>101.690000</Value>
    </DataRecord>

    <DataRecord id=""5"">
        <Function>Instantaneous value</Function>
        <StorageNumber>0</StorageNumber>
        <Unit>" ++ [176] ++ txt "C</Unit>
        <Quantity>Return temperature</Quantity>
        <Value>46.160000</Value>
    </DataRecord>

    <DataRecord id=""6"">
        <Function>Instantaneous value</Function>
        <StorageNumber>0</StorageNumber>
        <Unit>K</Unit>
        <Quantity>Temperature difference</Quantity>
        <Value>55.530000</Value>
    </DataRecord>

    <DataRecord id=""7"">
        <Function>Instantaneous value</Function>
        <StorageNumber>0</StorageNumber>
        <Unit>W</Unit>
        <Quantity>Power</Quantity>
        <Value>34700.000000</Value>
    </DataRecord>

    <DataRecord id=""8"">
        <Function>Maximum value</Function>
        <StorageNumber>0</StorageNumber>
        <Unit>W</Unit>
        <Quantity>Power</Quantity>
        <Value>44800.000000</Value>
    </DataRecord>

    <DataRecord id=""9"">
        <Function>Instantaneous value</Function>
        <StorageNumber>0</StorageNumber>
        <Unit>m^3/h</Unit>
        <Quantity>Volume flow</Quantity>
        <Value>0.543000</Value>
    </DataRecord>

    <DataRecord id=""10"">
        <Function>Maximum value</Function>
        <StorageNumber>0</StorageNumber>
        <Unit>m^3/h</Unit>
        <Quantity>Volume flow</Quantity>
        <Value>0.628000</Value>
    </DataRecord>

    <DataRecord id=""11"">
        <Function>Instantaneous value</Function>
        <StorageNumber>0</StorageNumber>
        <Tariff>1</Tariff>
        <Device>0</Device>
        <Unit>Wh</Unit>
        <Quantity>Energy</Quantity>
        <Value>0.000000</Value>
    </DataRecord>

    <DataRecord id=""12"">
        <Function>Instantaneous value</Function>
        <StorageNumber>0</StorageNumber>
        <Tariff>2</Tariff>
        <Device>0</Device>
        <Unit>Wh</Unit>
        <Quantity>Energy</Quantity>
        <Value>0.000000</Value>
    </DataRecord>

    <DataRecord id=""13"">
        <Function>Instantaneous value</Function>
        <StorageNumber>0</StorageNumber>
        <Tariff>0</Tariff>
        <Device>1</Device>
        <Unit>m^3</Unit>
        <Quantity>Volume</Quantity>
        <Value>0.000000</Value>
    </DataRecord>

    <DataRecord id=""14"">
        <Function>Instantaneous value</Function>
        <StorageNumber>0</StorageNumber>
        <Tariff>0</Tariff>
        <Device>2</Device>
        <Unit>m^3</Unit>
        <Quantity>Volume</Quantity>
        <Value>0.000000</Value>
    </DataRecord>

    <DataRecord id=""15"">
        <Function>Instantaneous value</Function>
        <StorageNumber>0</StorageNumber>
        <Tariff>0</Tariff>
        <Device>3</Device>
        <Unit>Wh</Unit>
        <Quantity>Energy</Quantity>
        <Value>0.000000</Value>
    </DataRecord>

    <DataRecord id=""16"">
        <Function>Instantaneous value</Function>
        <StorageNumber>0</StorageNumber>
        <Unit>-</Unit>
        <Quantity>Time point (date &amp; time)</Quantity>
        <Value>2011-01-05T15:26:00Z</Value>
    </DataRecord>

    <DataRecord id=""17"">
        <Function>Instantaneous value</Function>
        <StorageNumber>1</StorageNumber>
        <Unit>Wh</Unit>
        <Quantity>Energy</Quantity>
        <Value>33361000.000000</Value>
    </DataRecord>

    <DataRecord id=""18"">
        <Function>Instantaneous value</Function>
        <StorageNumber>1</StorageNumber>
        <Unit>m^3</Unit>
        <Quantity>Volume</Quantity>
        <Value>500.980000</Value>
    </DataRecord>

    <DataRecord id=""19"">
        <Function>Maximum value</Function>
        <StorageNumber>1</StorageNumber>
        <Unit>W</Unit>
        <Quantity>Power</Quantity>
        <Value>55000.000000</Value>
    </DataRecord>

    <DataRecord id=""20"">
        <Function>Maximum value</Function>
        <StorageNumber>1</StorageNumber>
        <Unit>m^3/h</Unit>
        <Quantity>Volume flow</Quantity>
        <Value>1.027000</Value>
    </DataRecord>

    <DataRecord id=""21"">
        <Function>Instantaneous value</Function>
        <StorageNumber>1</StorageNumber>
        <Tariff>1</Tariff>
        <Device>0</Device>
        <Unit>Wh</Unit>
        <Quantity>Energy</Quantity>
        <Value>0.000000</Value>
    </DataRecord>

    <DataRecord id=""22"">
        <Function>Instantaneous value</Function>
        <StorageNumber>1</StorageNumber>
        <Tariff>2</Tariff>
        <Device>0</Device>
        <Unit>Wh</Unit>
        <Quantity>Energy</Quantity>
        <Value>0.000000</Value>
    </DataRecord>

    <DataRecord id=""23"">
        <Function>Instantaneous value</Function>
        <StorageNumber>1</StorageNumber>
        <Tariff>0</Tariff>
        <Device>1</Device>
        <Unit>m^3</Unit>
        <Quantity>Volume</Quantity>
        <Value>0.000000</Value>
    </DataRecord>

    <DataRecord id=""24"">
        <Function>Instantaneous value</Function>
        <StorageNumber>1</StorageNumber>
        <Tariff>0</Tariff>
        <Device>2</Device>
        <Unit>m^3</Unit>
        <Quantity>Volume</Quantity>
        <Value>0.000000</Value>
    </DataRecord>

    <DataRecord id=""25"">
        <Function>Instantaneous value</Function>
        <StorageNumber>1</StorageNumber>
        <Tariff>0</Tariff>
        <Device>3</Device>
        <Unit>Wh</Unit>
        <Quantity>Energy</Quantity>
        <Value>0.000000</Value>
    </DataRecord>

    <DataRecord id=""26"">
        <Function>Instantaneous value</Function>
        <StorageNumber>1</StorageNumber>
        <Unit>-</Unit>
        <Quantity>Time point (date)</Quantity>
        <Value>2010-12-31</Value>
    </DataRecord>

    <DataRecord id=""27"">
        <Function>Manufacturer specific</Function>
        <StorageNumber>0</StorageNumber>
        <Unit></Unit>
        <Quantity></Quantity>
        <Value>00 00 00 00 E7 E4 00 00 63 66 00 00 00 00 00 00 00 00 00 00 00 00 00 00 5B C9 A5 02 34 53 00 00 E0 B2 03 00 89 9C 68 00 00 00 00 00 01 00 01 07 07 09 01 03 00 00 00 00 00</Value>
    </DataRecord>

</MBusData>
")%list = (true, true).
Proof. vm_compute. reflexivity. Qed.

(** landis+gyr_ultraheat_t230 *)
Example frame_47 : agrees
  (txt "68 E2 E2 68 08 00 72 05 02 66 66 A7 32 07 04 01 10 00 00 09 74 04 09 70 08 0C 06 00 00 00 00 0C 14 00 00 00 00 0B 2D 00 00 00 0B 3B 00 00 00 0B 5A 95 01 00 0B 5E 97 01 00 0B 62 02 00 F0 0C 78 05 02 66 66 89 10 71 07 3C 22 69 37 00 00 0C 22 69 37 00 00 0C 26 00 00 00 00 8C 90 10 06 00 00 00 00 9B 10 2D 00 00 00 9B 10 3B 00 00 00 9B 10 5A 07 03 00 9B 10 5E 07 05 00 94 10 AD 6F 00 00 00 00 94 10 BB 6F 00 00 00 00 94 10 DA 6F 32 14 7A 18 94 10 DE 6F 2B 0B 69 18 4C 06 00 00 00 00 4C 14 00 00 00 00 7C 22 69 34 00 00 4C 26 00 00 00 00 CC 90 10 06 00 00 00 00 DB 10 2D 00 00 00 DB 10 3B 00 00 00 DB 10 5A 07 03 00 DB 10 5E 07 05 00 84 8F 0F 6D 00 00 E1 F1 04 6D 04 0C 8D 11 0F 09 07 00 66 01 7D 16
")%list
  (txt "<?xml version=""1.0"" encoding=""ISO-8859-1""?>
<MBusData>

    <SlaveInformation>
        <Id>66660205</Id>
        <Manufacturer>LUG</Manufacturer>
        <Version>7</Version>
        <ProductName>Landis &amp; Gyr Ultraheat T230</ProductName>
        <Medium>Heat: Outlet</Medium>
        <AccessNumber>1</AccessNumber>
        <Status>10</Status>
        <Signature>0000</Signature>
    </SlaveInformation>

    <DataRecord id=""0"">
        <Function>Instantaneous value</Function>
        <StorageNumber>0</StorageNumber>
        <Unit>s</Unit>
        <Quantity>Actuality Duration</Quantity>
        <Value>4.000000</Value>
    </DataRecord>

    <DataRecord id=""1"">
        <Function>Instantaneous value</Function>
        <StorageNumber>0</StorageNumber>
        <Unit>s</Unit>
        <Quantity>Averaging Duration</Quantity>
        <Value>8.000000</Value>
    </DataRecord>

    <DataRecord id=""2"">
        <Function>Instantaneous value</Function>
        <StorageNumber>0</StorageNumber>
        <Unit>Wh</Unit>
        <Quantity>Energy</Quantity>
        <Value>0.000000</Value>
    </DataRecord>

    <DataRecord id=""3"">
        <Function>Instantaneous value</Function>
        <StorageNumber>0</StorageNumber>
        <Unit>m^3</Unit>
        <Quantity>Volume</Quantity>
        <Value>0.000000</Value>
    </DataRecord>

    <DataRecord id=""4"">
        <Function>Instantaneous value</Function>
        <StorageNumber>0</StorageNumber>
        <Unit>W</Unit>
        <Quantity>Power</Quantity>
        <Value>0.000000</Value>
    </DataRecord>

    <DataRecord id=""5"">
        <Function>Instantaneous value</Function>
        <StorageNumber>0</StorageNumber>
        <Unit>m^3/h</Unit>
        <Quantity>Volume flow</Quantity>
        <Value>0.000000</Value>
    </DataRecord>

    <DataRecord id=""6"">
        <Function>Instantaneous value</Function>
        <StorageNumber>0</StorageNumber>
        <Unit>" ++ [176] ++ txt "C</Unit>
        <Quantity>Flow temperature</Quantity>
        <Value>19.500000</Value>
    </DataRecord>

    <DataRecord id=""7"">
        <Function>Instantaneous value</Function>
        <StorageNumber>0</StorageNumber>
        <Unit>" ++ [176] ++ txt "C</Unit>
        <Quantity>Return temperature</Quantity>
        <Value>19.700000</Value>
    </DataRecord>

    <DataRecord id=""8"">
        <Function>Instantaneous value</Function>
        <StorageNumber>0</StorageNumber>
        <Unit>K</Unit>
        <Quantity>Temperature difference</Quantity>
        <Value>-0.200000</Value>
    </DataRecord>

    <DataRecord id=""9"">
        <Function>Instantaneous value</Function>
        <StorageNumber>0</StorageNumber>
        <Unit></Unit>
        <Quantity>Fabrication No</Quantity>
        <Value>66660205.000000</Value>
    </DataRecord>

    <DataRecord id=""10"">
        <Function>Instantaneous value</Function>
        <StorageNumber>0</StorageNumber>
        <Tariff>1</Tariff>
        <Device>0</Device>
        <Unit>s</Unit>
        <Quantity>Averaging Duration</Quantity>
        <Value>420.000000</Value>
    </DataRecord>

    <DataRecord id=""11"">
        <Function>Value during error state</Function>
        <StorageNumber>0</StorageNumber>
        <Unit>s</Unit>
        <Quantity>On time</Quantity>
        <Value>13568400.000000</Value>
    </DataRecord>

    <DataRecord id=""12"">
        <Function>Instantaneous value</Function>
        <StorageNumber>0</StorageNumber>
        <Unit>s</Unit>
        <Quantity>On time</Quantity>
        <Value>13568400.000000</Value>
    </DataRecord>

    <DataRecord id=""13"">
        <Function>Instantaneous value</Function>
        <StorageNumber>0</StorageNumber>
        <Unit>s</Unit>
        <Quantity>Operating time</Quantity>
        <Value>0.000000</Value>
    </DataRecord>

    <DataRecord id=""14"">
        <Function>Instantaneous value</Function>
        <StorageNumber>0</StorageNumber>
        <Tariff>5</Tariff>
        <Device>0</Device>
        <Unit>Wh</Unit>
        <Quantity>Energy</Quantity>
        <Value>0.000000</Value>
    </DataRecord>

    <DataRecord id=""15"">
        <Function>Maximum value</Function>
        <StorageNumber>0</StorageNumber>
        <Tariff>1</Tariff>
        <Device>0</Device>
        <Unit>W</Unit>
        <Quantity>Power</Quantity>
        <Value>0.000000</Value>
    </DataRecord>

    <DataRecord id=""16"">
        <Function>Maximum value</Function>
        <StorageNumber>0</StorageNumber>
        <Tariff>1</Tariff>
        <Device>0</Device>
        <Unit>m^3/h</Unit>
        <Quantity>Volume flow</Quantity>
        <Value>0.000000</Value>
    </DataRecord>

    <DataRecord id=""17"">
        <Function>Maximum value</Function>
        <StorageNumber>0</StorageNumber>
        <Tariff>1</Tariff>
        <Device>0</Device>
        <Unit>" ++ [176] ++ txt "C</Unit>
        <Quantity>Flow temperature</Quantity>
        <Value>30.700000</Value>
    </DataRecord>

    <DataRecord id=""18"">
        <Function>Maximum value</Function>
        <StorageNumber>0</StorageNumber>
        <Tariff>1</Tariff>
        <Device>0</Device>
        <Unit>" ++ [176] ++ txt "C</Unit>
        <Quantity>Return temperature</Quantity>
        <Value>50.700000</Value>
    </DataRecord>

    <DataRecord id=""19"">
        <Function>Maximum value</Function>
        <StorageNumber>0</StorageNumber>
        <Tariff>1</Tariff>
        <Device>0</Device>
        <Unit>W</Unit>
        <Quantity>Power</Quantity>
        <Value>0.000000</Value>
    </DataRecord>

    <DataRecord id=""20"">
        <Function>Maximum value</Function>
        <StorageNumber>0</StorageNumber>
        <Tariff>1</Tariff>
        <Device>0</Device>
        <Unit>m^3/h</Unit>
        <Quantity>Volume flow</Quantity>
        <Value>0.000000</Value>
    </DataRecord>

    <DataRecord id=""21"">
        <Function>Maximum value</Function>
        <StorageNumber>0</StorageNumber>
        <Tariff>1</Tariff>
        <Device>0</Device>
        <Unit>" ++ [176] ++ txt "C</Unit>
        <Quantity>Flow temperature</Quantity>
        <Value>41065374.600000</Value>
    </DataRecord>

    <DataRecord id=""22"">
        <Function>Maximum value</Function>
        <StorageNumber>0</StorageNumber>
        <Tariff>1</Tariff>
        <Device>0</Device>
        <Unit>" ++ [176] ++ txt "C</Unit>
        <Quantity>Return temperature</Quantity>
        <Value>40953732.300000</Value>
    </DataRecord>

    <DataRecord id=""23"">
        <Function>Instantaneous value</Function>
        <StorageNumber>1</StorageNumber>
        <Unit>Wh</Unit>
        <Quantity>Energy</Quantity>
        <Value>0.000000</Value>
    </DataRecord>

    <DataRecord id=""24"">
        <Function>Instantaneous value</Function>
        <StorageNumber>1</StorageNumber>
        <Unit>m^3</Unit>
        <Quantity>Volume</Quantity>
        <Value>0.000000</Value>
    </DataRecord>

    <DataRecord id=""25"">
        <Function>Value during error state</Function>
        <StorageNumber>1</StorageNumber>
        <Unit>s</Unit>
        <Quantity>On time</Quantity>
        <Value>12488400.000000</Value>
    </DataRecord>

    <DataRecord id=""26"">
        <Function>Instantaneous value</Function>
        <StorageNumber>1</StorageNumber>
        <Unit>s</Unit>
        <Quantity>Operating time</Quantity>
        <Value>0.000000</Value>
    </DataRecord>

    <DataRecord id=""27"">
        <Function>Instantaneous value</Function>
        <StorageNumber>1</StorageNumber>
        <Tariff>5</Tariff>
        <Device>0</Device>
        <Unit>Wh</Unit>
        <Quantity>Energy</Quantity>
        <Value>0.000000</Value>
    </DataRecord>

    <DataRecord id=""28"">
        <Function>Maximum value</Function>
        <StorageNumber>1</StorageNumber>
        <Tariff>1</Tariff>
        <Device>0</Device>
        <Unit>W</Unit>
        <Quantity>Power</Quantity>
        <Value>0.000000</Value>
    </DataRecord>

    <DataRecord id=""29"">
        <Function>Maximum value</Function>
        <StorageNumber>1</StorageNumber>
        <Tariff>1</Tariff>
        <Device>0</Device>
        <Unit>m^3/h</Unit>
        <Quantity>Volume flow</Quantity>
        <Value>0.000000</Value>
    </DataRecord>

    <DataRecord id=""30"">
        <Function>Maximum value</Function>
        <StorageNumber>1</StorageNumber>
        <Tariff>1</Tariff>
        <Device>0</Device>
        <Unit>" ++ [176] ++ txt "C</Unit>
        <Quantity>Flow temperature</Quantity>
        <Value>30.700000</Value>
    </DataRecord>

    <DataRecord id=""31"">
        <Function>Maximum value</Function>
        <StorageNumber>1</StorageNumber>
        <Tariff>1</Tariff>
        <Device>0</Device>
        <Unit>" ++ [176] ++ txt "C</Unit>
        <Quantity>Return temperature</Quantity>
        <Value>50.700000</Value>
    </DataRecord>

    <DataRecord id=""32"">
        <Function>Instantaneous value</Function>
        <StorageNumber>510</StorageNumber>
        <Tariff>0</Tariff>
        <Device>0</Device>
        <Unit>-</Unit>
        <Quantity>Time point (date &amp; time)</Quantity>
        <Value>2127-01-01T00:00:00Z</Value>
    </DataRecord>

    <DataRecord id=""33"">
        <Function>Instantaneous value</Function>
        <StorageNumber>0</StorageNumber>
        <Unit>-</Unit>
        <Quantity>Time point (date &amp; time)</Quantity>
        <Value>2012-01-13T12:04:00Z</Value>
    </DataRecord>

    <DataRecord id=""34"">
        <Function>Manufacturer specific</Function>
        <StorageNumber>0</StorageNumber>
        <Unit></Unit>
        <Quantity></Quantity>
        <Value>09 07 00 66 01</Value>
    </DataRecord>

</MBusData>
")%list = (false, false).
Proof. vm_compute. reflexivity. Qed.

(** manual_frame2 *)
Example frame_48 : agrees
  (txt "68 13 13 68 08 05 73 78 56 34 12 0A 00 E9 7E 01 00 00 00 35 01 00 00 3C 16
")%list
  (txt "<?xml version=""1.0"" encoding=""ISO-8859-1""?>
<MBusData>

    <SlaveInformation>
        <Id>12345678</Id>
        <Medium>Water</Medium>
        <AccessNumber>10</AccessNumber>
        <Status>00</Status>
    </SlaveInformation>

    <DataRecord id=""0"">
        <Function>Actual value</Function>
        <Unit>l</Unit>
        <Value>1</Value>
    </DataRecord>

    <DataRecord id=""1"">
        <Function>Actual value</Function>
        <Unit>reserved but historic</Unit>
        <Value>135</Value>
    </DataRecord>

</MBusData>
")%list = (true, true).
Proof. vm_compute. reflexivity. Qed.

(** manual_frame3 *)
Example frame_49 : agrees
  (txt "68 1F 1F 68 08 02 72 78 56 34 12 24 40 01 07 55 00 00 00 03 13 15 31 00 DA 02 3B 13 01 8B 60 04 37 18 02 18 16
")%list
  (txt "<?xml version=""1.0"" encoding=""ISO-8859-1""?>
<MBusData>

    <SlaveInformation>
        <Id>12345678</Id>
        <Manufacturer>PAD</Manufacturer>
        <Version>1</Version>
        <ProductName></ProductName>
        <Medium>Water</Medium>
        <AccessNumber>85</AccessNumber>
        <Status>00</Status>
        <Signature>0000</Signature>
    </SlaveInformation>

    <DataRecord id=""0"">
        <Function>Instantaneous value</Function>
        <StorageNumber>0</StorageNumber>
        <Unit>m^3</Unit>
        <Quantity>Volume</Quantity>
        <Value>12.565000</Value>
    </DataRecord>

    <DataRecord id=""1"">
        <Function>Maximum value</Function>
        <StorageNumber>5</StorageNumber>
        <Tariff>0</Tariff>
        <Device>0</Device>
        <Unit>m^3/h</Unit>
        <Quantity>Volume flow</Quantity>
        <Value>0.113000</Value>
    </DataRecord>

    <DataRecord id=""2"">
        <Function>Instantaneous value</Function>
        <StorageNumber>0</StorageNumber>
        <Tariff>2</Tariff>
        <Device>1</Device>
        <Unit>Wh</Unit>
        <Quantity>Energy</Quantity>
        <Value>218370.000000</Value>
    </DataRecord>

</MBusData>
")%list = (true, true).
Proof. vm_compute. reflexivity. Qed.

(** manual_frame7 *)
Example frame_50 : agrees
  (txt "68 15 15 68 08 02 72 78 56 34 12 24 40 01 07 13 00 00 00 0C 78 04 03 02 01 9D 16
")%list
  (txt "<?xml version=""1.0"" encoding=""ISO-8859-1""?>
<MBusData>

    <SlaveInformation>
        <Id>12345678</Id>
        <Manufacturer>PAD</Manufacturer>
        <Version>1</Version>
        <ProductName></ProductName>
        <Medium>Water</Medium>
        <AccessNumber>19</AccessNumber>
        <Status>00</Status>
        <Signature>0000</Signature>
    </SlaveInformation>

    <DataRecord id=""0"">
        <Function>Instantaneous value</Function>
        <StorageNumber>0</StorageNumber>
        <Unit></Unit>
        <Quantity>Fabrication No</Quantity>
        <Value>1020304.000000</Value>
    </DataRecord>

</MBusData>
")%list = (true, true).
Proof. vm_compute. reflexivity. Qed.

(** metrona_pollutherm *)
Example frame_51 : agrees
  (txt "68 42 42 68 08 00 72 46 01 95 44 18 4E 34 04 54 10 00 00 0C 07 00 00 00 00 0C 14 00 00 00 00 0C 3C 00 00 00 00 0C 2C 00 00 00 00 0A 5A 00 00 0A 5E 00 00 0B 60 00 00 00 0C 78 46 01 95 44 0C FD 10 46 01 95 44 1F 82 16")%list
  (txt "<?xml version=""1.0"" encoding=""ISO-8859-1""?>
<MBusData>

    <SlaveInformation>
        <Id>44950146</Id>
        <Manufacturer>SPX</Manufacturer>
        <Version>52</Version>
        <ProductName>Sensus PolluTherm</ProductName>
        <Medium>Heat: Outlet</Medium>
        <AccessNumber>84</AccessNumber>
        <Status>10</Status>
        <Signature>0000</Signature>
    </SlaveInformation>

    <DataRecord id=""0"">
        <Function>Instantaneous value</Function>
        <StorageNumber>0</StorageNumber>
        <Unit>Wh</Unit>
        <Quantity>Energy</Quantity>
        <Value>0.000000</Value>
    </DataRecord>

    <DataRecord id=""1"">
        <Function>Instantaneous value</Function>
        <StorageNumber>0</StorageNumber>
        <Unit>m^3</Unit>
        <Quantity>Volume</Quantity>
        <Value>0.000000</Value>
    </DataRecord>

    <DataRecord id=""2"">
        <Function>Instantaneous value</Function>
        <StorageNumber>0</StorageNumber>
        <Unit>m^3/h</Unit>
        <Quantity>Volume flow</Quantity>
        <Value>0.000000</Value>
    </DataRecord>

    <DataRecord id=""3"">
        <Function>Instantaneous value</Function>
        <StorageNumber>0</StorageNumber>
        <Unit>W</Unit>
        <Quantity>Power</Quantity>
        <Value>0.000000</Value>
    </DataRecord>

    <DataRecord id=""4"">
        <Function>Instantaneous value</Function>
        <StorageNumber>0</StorageNumber>
        <Unit>" ++ [176] ++ txt "C</Unit>
        <Quantity>Flow temperature</Quantity>
        <Value>0.000000</Value>
    </DataRecord>

    <DataRecord id=""5"">
        <Function>Instantaneous value</Function>
        <StorageNumber>0</StorageNumber>
        <Unit>" ++ [176] ++ txt "C</Unit>
        <Quantity>Return temperature</Quantity>
        <Value>0.000000</Value>
    </DataRecord>

    <DataRecord id=""6"">
        <Function>Instantaneous value</Function>
        <StorageNumber>0</StorageNumber>
        <Unit>K</Unit>
        <Quantity>Temperature difference</Quantity>
        <Value>0.000000</Value>
    </DataRecord>

    <DataRecord id=""7"">
        <Function>Instantaneous value</Function>
        <StorageNumber>0</StorageNumber>
        <Unit></Unit>
        <Quantity>Fabrication No</Quantity>
        <Value>44950146.000000</Value>
    </DataRecord>

    <DataRecord id=""8"">
        <Function>Instantaneous value</Function>
        <StorageNumber>0</StorageNumber>
        <Unit></Unit>
        <Quantity>Customer location</Quantity>
        <Value>44950146.000000</Value>
    </DataRecord>

    <DataRecord id=""9"">
        <Function>More records follow</Function>
        <StorageNumber>0</StorageNumber>
        <Unit></Unit>
        <Quantity></Quantity>
        <Value></Value>
    </DataRecord>

</MBusData>
")%list = (true, true).
Proof. vm_compute. reflexivity. Qed.

(** metrona_ultraheat_xs *)
Example frame_52 : agrees
  (txt "68 F8 F8 68 08 64 72 54 00 81 01 A7 32 02 04 0F 10 00 00 09 74 04 09 70 04 0C 06 69 99 01 00 0C 14 18 92 64 02 0B 2E 00 00 00 0B 3B 00 00 00 0A 5B 00 00 0A 5F 00 00 0A 62 00 00 4C 14 18 92 64 02 4C 06 69 99 01 00 0C 78 54 00 11 65 89 10 71 60 9B 10 2D 16 03 00 DB 10 2D 16 03 00 9B 10 3B 20 88 00 9A 10 5B 44 00 9A 10 5F 40 00 0C 22 67 00 07 00 3C 22 09 16 05 00 7C 22 17 78 04 00 42 6C 01 01 8C 20 06 00 00 00 00 8C 30 06 00 00 00 00 8C 80 10 06 00 00 00 00 CC 20 06 00 00 00 00 CC 30 06 00 00 00 00 CC 80 10 06 00 00 00 00 9A 11 5B 36 00 9A 11 5F 40 00 9B 11 3B 00 00 00 9B 11 2D 00 00 00 BC 01 22 65 14 05 00 8C 01 06 69 99 01 00 8C 21 06 00 00 00 00 8C 31 06 00 00 00 00 8C 81 10 06 00 00 00 00 8C 01 14 18 92 64 02 04 6D 26 00 87 16 0F 03 02 00 00 23 46 16")%list
  (txt "<?xml version=""1.0"" encoding=""ISO-8859-1""?>
<MBusData>

    <SlaveInformation>
        <Id>1810054</Id>
        <Manufacturer>LUG</Manufacturer>
        <Version>2</Version>
        <ProductName>Landis &amp; Gyr Ultraheat 2WR5</ProductName>
        <Medium>Heat: Outlet</Medium>
        <AccessNumber>15</AccessNumber>
        <Status>10</Status>
        <Signature>0000</Signature>
    </SlaveInformation>

    <DataRecord id=""0"">
        <Function>Instantaneous value</Function>
        <StorageNumber>0</StorageNumber>
        <Unit>s</Unit>
        <Quantity>Actuality Duration</Quantity>
        <Value>4.000000</Value>
    </DataRecord>

    <DataRecord id=""1"">
        <Function>Instantaneous value</Function>
        <StorageNumber>0</StorageNumber>
        <Unit>s</Unit>
        <Quantity>Averaging Duration</Quantity>
        <Value>4.000000</Value>
    </DataRecord>

    <DataRecord id=""2"">
        <Function>Instantaneous value</Function>
        <StorageNumber>0</StorageNumber>
        <Unit>Wh</Unit>
        <Quantity>Energy</Quantity>
        <Value>19969000.000000</Value>
    </DataRecord>

    <DataRecord id=""3"">
        <Function>Instantaneous value</Function>
        <StorageNumber>0</StorageNumber>
        <Unit>m^3</Unit>
        <Quantity>Volume</Quantity>
        <Value>26492.180000</Value>
    </DataRecord>

    <DataRecord id=""4"">
        <Function>Instantaneous value</Function>
        <StorageNumber>0</StorageNumber>
        <Unit>W</Unit>
        <Quantity>Power</Quantity>
        <Value>0.000000</Value>
    </DataRecord>

    <DataRecord id=""5"">
        <Function>Instantaneous value</Function>
        <StorageNumber>0</StorageNumber>
        <Unit>m^3/h</Unit>
        <Quantity>Volume flow</Quantity>
        <Value>0.000000</Value>
    </DataRecord>

    <DataRecord id=""6"">
        <Function>Instantaneous value</Function>
        <StorageNumber>0</StorageNumber>
        <Unit>" ++ [176] ++ txt "C</Unit>
        <Quantity>Flow temperature</Quantity>
        <Value>0.000000</Value>
    </DataRecord>

    <DataRecord id=""7"">
        <Function>Instantaneous value</Function>
        <StorageNumber>0</StorageNumber>
        <Unit>" ++ [176] ++ txt "C</Unit>
        <Quantity>Return temperature</Quantity>
        <Value>0.000000</Value>
    </DataRecord>

    <DataRecord id=""8"">
        <Function>Instantaneous value</Function>
        <StorageNumber>0</StorageNumber>
        <Unit>K</Unit>
        <Quantity>Temperature difference</Quantity>
        <Value>0.000000</Value>
    </DataRecord>

    <DataRecord id=""9"">
        <Function>Instantaneous value</Function>
        <StorageNumber>1</StorageNumber>
        <Unit>m^3</Unit>
        <Quantity>Volume</Quantity>
        <Value>26492.180000</Value>
    </DataRecord>

    <DataRecord id=""10"">
        <Function>Instantaneous value</Function>
        <StorageNumber>1</StorageNumber>
        <Unit>Wh</Unit>
        <Quantity>Energy</Quantity>
        <Value>19969000.000000</Value>
    </DataRecord>

    <DataRecord id=""11"">
        <Function>Instantaneous value</Function>
        <StorageNumber>0</StorageNumber>
        <Unit></Unit>
        <Quantity>Fabrication No</Quantity>
        <Value>65110054.000000</Value>
    </DataRecord>

    <DataRecord id=""12"">
        <Function>Instantaneous value</Function>
        <StorageNumber>0</StorageNumber>
        <Tariff>1</Tariff>
        <Device>0</Device>
        <Unit>s</Unit>
        <Quantity>Averaging Duration</Quantity>
        <Value>3600.000000</Value>
    </DataRecord>

    <DataRecord id=""13"">
        <Function>Maximum value</Function>
        <StorageNumber>0</StorageNumber>
        <Tariff>1</Tariff>
        <Device>0</Device>
        <Unit>W</Unit>
        <Quantity>Power</Quantity>
        <Value>31600.000000</Value>
    </DataRecord>

    <DataRecord id=""14"">
        <Function>Maximum value</Function>
        <StorageNumber>1</StorageNumber>
        <Tariff>1</Tariff>
        <Device>0</Device>
        <Unit>W</Unit>
        <Quantity>Power</Quantity>
        <Value>31600.000000</Value>
    </DataRecord>

    <DataRecord id=""15"">
        <Function>Maximum value</Function>
        <StorageNumber>0</StorageNumber>
        <Tariff>1</Tariff>
        <Device>0</Device>
        <Unit>m^3/h</Unit>
        <Quantity>Volume flow</Quantity>
        <Value>8.820000</Value>
    </DataRecord>

    <DataRecord id=""16"">
        <Function>Maximum value</Function>
        <StorageNumber>0</StorageNumber>
        <Tariff>1</Tariff>
        <Device>0</Device>
        <Unit>" ++ [176] ++ txt "C</Unit>
        <Quantity>Flow temperature</Quantity>
        <Value>44.000000</Value>
    </DataRecord>

    <DataRecord id=""17"">
        <Function>Maximum value</Function>
        <StorageNumber>0</StorageNumber>
        <Tariff>1</Tariff>
        <Device>0</Device>
        <Unit>" ++ [176] ++ txt "C</Unit>
        <Quantity>Return temperature</Quantity>
        <Value>40.000000</Value>
    </DataRecord>

    <DataRecord id=""18"">
        <Function>Instantaneous value</Function>
        <StorageNumber>0</StorageNumber>
        <Unit>s</Unit>
        <Quantity>On time</Quantity>
        <Value>252241200.000000</Value>
    </DataRecord>

    <DataRecord id=""19"">
        <Function>Value during error state</Function>
        <StorageNumber>0</StorageNumber>
        <Unit>s</Unit>
        <Quantity>On time</Quantity>
        <Value>185792400.000000</Value>
    </DataRecord>

    <DataRecord id=""20"">
        <Function>Value during error state</Function>
        <StorageNumber>1</StorageNumber>
        <Unit>s</Unit>
        <Quantity>On time</Quantity>
        <Value>172141200.000000</Value>
    </DataRecord>

    <DataRecord id=""21"">
        <Function>Instantaneous value</Function>
        <StorageNumber>1</StorageNumber>
        <Unit>-</Unit>
        <Quantity>Time point (date)</Quantity>
        <Value>2000-01-01</Value>
    </DataRecord>

    <DataRecord id=""22"">
        <Function>Instantaneous value</Function>
        <StorageNumber>0</StorageNumber>
        <Tariff>2</Tariff>
        <Device>0</Device>
        <Unit>Wh</Unit>
        <Quantity>Energy</Quantity>
        <Value>0.000000</Value>
    </DataRecord>

    <DataRecord id=""23"">
        <Function>Instantaneous value</Function>
        <StorageNumber>0</StorageNumber>
        <Tariff>3</Tariff>
        <Device>0</Device>
        <Unit>Wh</Unit>
        <Quantity>Energy</Quantity>
        <Value>0.000000</Value>
    </DataRecord>

    <DataRecord id=""24"">
        <Function>Instantaneous value</Function>
        <StorageNumber>0</StorageNumber>
        <Tariff>4</Tariff>
        <Device>0</Device>
        <Unit>Wh</Unit>
        <Quantity>Energy</Quantity>
        <Value>0.000000</Value>
    </DataRecord>

    <DataRecord id=""25"">
        <Function>Instantaneous value</Function>
        <StorageNumber>1</StorageNumber>
        <Tariff>2</Tariff>
        <Device>0</Device>
        <Unit>Wh</Unit>
        <Quantity>Energy</Quantity>
        <Value>0.000000</Value>
    </DataRecord>

    <DataRecord id=""26"">
        <Function>Instantaneous value</Function>
        <StorageNumber>1</StorageNumber>
        <Tariff>3</Tariff>
        <Device>0</Device>
        <Unit>Wh</Unit>
        <Quantity>Energy</Quantity>
        <Value>0.000000</Value>
    </DataRecord>

    <DataRecord id=""27"">
        <Function>Instantaneous value</Function>
        <StorageNumber>1</StorageNumber>
        <Tariff>4</Tariff>
        <Device>0</Device>
        <Unit>Wh</Unit>
        <Quantity>Energy</Quantity>
        <Value>0.000000</Value>
    </DataRecord>

    <DataRecord id=""28"">
        <Function>Maximum value</Function>
        <StorageNumber>2</StorageNumber>
        <Tariff>1</Tariff>
        <Device>0</Device>
        <Unit>" ++ [176] ++ txt "C</Unit>
        <Quantity>Flow temperature</Quantity>
        <Value>36.000000</Value>
    </DataRecord>

    <DataRecord id=""29"">
        <Function>Maximum value</Function>
        <StorageNumber>2</StorageNumber>
        <Tariff>1</Tariff>
        <Device>0</Device>
        <Unit>" ++ [176] ++ txt "C</Unit>
        <Quantity>Return temperature</Quantity>
        <Value>40.000000</Value>
    </DataRecord>

    <DataRecord id=""30"">
        <Function>Maximum value</Function>
        <StorageNumber>2</StorageNumber>
        <Tariff>1</Tariff>
        <Device>0</Device>
        <Unit>m^3/h</Unit>
        <Quantity>Volume flow</Quantity>
        <Value>0.000000</Value>
    </DataRecord>

    <DataRecord id=""31"">
        <Function>Maximum value</Function>
        <StorageNumber>2</StorageNumber>
        <Tariff>1</Tariff>
        <Device>0</Device>
        <Unit>W</Unit>
        <Quantity>Power</Quantity>
        <Value>0.000000</Value>
    </DataRecord>

    <DataRecord id=""32"">
        <Function>Value during error state</Function>
        <StorageNumber>2</StorageNumber>
        <Tariff>0</Tariff>
        <Device>0</Device>
        <Unit>s</Unit>
        <Quantity>On time</Quantity>
        <Value>185274000.000000</Value>
    </DataRecord>

    <DataRecord id=""33"">
        <Function>Instantaneous value</Function>
        <StorageNumber>2</StorageNumber>
        <Tariff>0</Tariff>
        <Device>0</Device>
        <Unit>Wh</Unit>
        <Quantity>Energy</Quantity>
        <Value>19969000.000000</Value>
    </DataRecord>

    <DataRecord id=""34"">
        <Function>Instantaneous value</Function>
        <StorageNumber>2</StorageNumber>
        <Tariff>2</Tariff>
        <Device>0</Device>
        <Unit>Wh</Unit>
        <Quantity>Energy</Quantity>
        <Value>0.000000</Value>
    </DataRecord>

    <DataRecord id=""35"">
        <Function>Instantaneous value</Function>
        <StorageNumber>2</StorageNumber>
        <Tariff>3</Tariff>
        <Device>0</Device>
        <Unit>Wh</Unit>
        <Quantity>Energy</Quantity>
        <Value>0.000000</Value>
    </DataRecord>

    <DataRecord id=""36"">
        <Function>Instantaneous value</Function>
        <StorageNumber>2</StorageNumber>
        <Tariff>4</Tariff>
        <Device>0</Device>
        <Unit>Wh</Unit>
        <Quantity>Energy</Quantity>
        <Value>0.000000</Value>
    </DataRecord>

    <DataRecord id=""37"">
        <Function>Instantaneous value</Function>
        <StorageNumber>2</StorageNumber>
        <Tariff>0</Tariff>
        <Device>0</Device>
        <Unit>m^3</Unit>
        <Quantity>Volume</Quantity>
        <Value>26492.180000</Value>
    </DataRecord>

    <DataRecord id=""38"">
        <Function>Instantaneous value</Function>
        <StorageNumber>0</StorageNumber>
        <Unit>-</Unit>
        <Quantity>Time point (date &amp; time)</Quantity>
        <Value>2012-06-07T00:38:00Z</Value>
    </DataRecord>

    <DataRecord id=""39"">
        <Function>Manufacturer specific</Function>
        <StorageNumber>0</StorageNumber>
        <Unit></Unit>
        <Quantity></Quantity>
        <Value>03 02 00 00 23</Value>
    </DataRecord>

</MBusData>
")%list = (true, true).
Proof. vm_compute. reflexivity. Qed.

(** minol_minocal_c2 *)
Example frame_53 : agrees
  (txt "68 EF EF 68 08 02 72 84 50 42 31 4D 6A 81 04 24 27 00 00 04 06 03 00 00 00 02 FD 17 00 00 84 04 6D 00 00 A1 11 84 04 06 03 00 00 00 84 05 06 00 00 00 00 04 13 49 00 00 00 04 3B 00 00 00 00 54 3B 2B 00 00 00 54 6D 1E 08 61 19 04 2D 00 00 00 00 94 01 2D 14 00 00 00 94 01 6D 1E 08 61 19 02 59 D9 07 02 5D 87 07 04 6D 35 0B 8D 11 82 80 01 6C 81 11 84 80 01 06 03 00 00 00 C2 80 01 6C 61 1C C4 80 01 06 03 00 00 00 82 81 01 6C 61 1B 84 81 01 06 03 00 00 00 C2 81 01 6C 61 1A C4 81 01 06 03 00 00 00 82 82 01 6C 61 19 84 82 01 06 00 00 00 00 C2 82 01 6C 61 18 C4 82 01 06 00 00 00 00 82 83 01 6C 61 17 84 83 01 06 00 00 00 00 C2 83 01 6C 61 16 C4 83 01 06 00 00 00 00 92 80 01 6C 81 11 94 80 01 3B 01 00 00 00 94 80 01 2D 00 00 00 00 8E 16


")%list
  (txt "<?xml version=""1.0"" encoding=""ISO-8859-1""?>
<MBusData>

    <SlaveInformation>
        <Id>31425084</Id>
        <Manufacturer>ZRM</Manufacturer>
        <Version>129</Version>
        <ProductName>Minol Minocal C2</ProductName>
        <Medium>Heat: Outlet</Medium>
        <AccessNumber>36</AccessNumber>
        <Status>27</Status>
        <Signature>0000</Signature>
    </SlaveInformation>

    <DataRecord id=""0"">
        <Function>Instantaneous value</Function>
        <StorageNumber>0</StorageNumber>
        <Unit>Wh</Unit>
        <Quantity>Energy</Quantity>
        <Value>3000.000000</Value>
    </DataRecord>

    <DataRecord id=""1"">
        <Function>Instantaneous value</Function>
        <StorageNumber>0</StorageNumber>
        <Unit></Unit>
        <Quantity>Error flags</Quantity>
        <Value>0.000000</Value>
    </DataRecord>

    <DataRecord id=""2"">
        <Function>Instantaneous value</Function>
        <StorageNumber>8</StorageNumber>
        <Tariff>0</Tariff>
        <Device>0</Device>
        <Unit>-</Unit>
        <Quantity>Time point (date &amp; time)</Quantity>
        <Value>2013-01-01T00:00:00Z</Value>
    </DataRecord>

    <DataRecord id=""3"">
        <Function>Instantaneous value</Function>
        <StorageNumber>8</StorageNumber>
        <Tariff>0</Tariff>
        <Device>0</Device>
        <Unit>Wh</Unit>
        <Quantity>Energy</Quantity>
        <Value>3000.000000</Value>
    </DataRecord>

    <DataRecord id=""4"">
        <Function>Instantaneous value</Function>
        <StorageNumber>10</StorageNumber>
        <Tariff>0</Tariff>
        <Device>0</Device>
        <Unit>Wh</Unit>
        <Quantity>Energy</Quantity>
        <Value>0.000000</Value>
    </DataRecord>

    <DataRecord id=""5"">
        <Function>Instantaneous value</Function>
        <StorageNumber>0</StorageNumber>
        <Unit>m^3</Unit>
        <Quantity>Volume</Quantity>
        <Value>0.073000</Value>
    </DataRecord>

    <DataRecord id=""6"">
        <Function>Instantaneous value</Function>
        <StorageNumber>0</StorageNumber>
        <Unit>m^3/h</Unit>
        <Quantity>Volume flow</Quantity>
        <Value>0.000000</Value>
    </DataRecord>

    <DataRecord id=""7"">
        <Function>Maximum value</Function>
        <StorageNumber>1</StorageNumber>
        <Unit>m^3/h</Unit>
        <Quantity>Volume flow</Quantity>
        <Value>0.043000</Value>
    </DataRecord>

    <DataRecord id=""8"">
        <Function>Maximum value</Function>
        <StorageNumber>1</StorageNumber>
        <Unit>-</Unit>
        <Quantity>Time point (date &amp; time)</Quantity>
        <Value>2011-09-01T08:30:00Z</Value>
    </DataRecord>

    <DataRecord id=""9"">
        <Function>Instantaneous value</Function>
        <StorageNumber>0</StorageNumber>
        <Unit>W</Unit>
        <Quantity>Power</Quantity>
        <Value>0.000000</Value>
    </DataRecord>

    <DataRecord id=""10"">
        <Function>Maximum value</Function>
        <StorageNumber>2</StorageNumber>
        <Tariff>0</Tariff>
        <Device>0</Device>
        <Unit>W</Unit>
        <Quantity>Power</Quantity>
        <Value>2000.000000</Value>
    </DataRecord>

    <DataRecord id=""11"">
        <Function>Maximum value</Function>
        <StorageNumber>2</StorageNumber>
        <Tariff>0</Tariff>
        <Device>0</Device>
        <Unit>-</Unit>
        <Quantity>Time point (date &amp; time)</Quantity>
        <Value>2011-09-01T08:30:00Z</Value>
    </DataRecord>

    <DataRecord id=""12"">
        <Function>Instantaneous value</Function>
        <StorageNumber>0</StorageNumber>
        <Unit>" ++ [176] ++ txt "C</Unit>
        <Quantity>Flow temperature</Quantity>
        <Value>20.090000</Value>
    </DataRecord>

    <DataRecord id=""13"">
        <Function>Instantaneous value</Function>
        <StorageNumber>0</StorageNumber>
        <Unit>" ++ [176] ++ txt "C</Unit>
        <Quantity>Return temperature</Quantity>
        <Value>19.270000</Value>
    </DataRecord>

    <DataRecord id=""14"">
        <Function>Instantaneous value</Function>
        <StorageNumber>0</StorageNumber>
        <Unit>-</Unit>
        <Quantity>Time point (date &amp; time)</Quantity>
        <Value>2012-01-13T11:53:00Z</Value>
    </DataRecord>

    <DataRecord id=""15"">
        <Function>Instantaneous value</Function>
        <StorageNumber>32</StorageNumber>
        <Tariff>0</Tariff>
        <Device>0</Device>
        <Unit>-</Unit>
        <Quantity>Time point (date)</Quantity>
        <Value>2012-01-01</Value>
    </DataRecord>

    <DataRecord id=""16"">
        <Function>Instantaneous value</Function>
        <StorageNumber>32</StorageNumber>
        <Tariff>0</Tariff>
        <Device>0</Device>
        <Unit>Wh</Unit>
        <Quantity>Energy</Quantity>
        <Value>3000.000000</Value>
    </DataRecord>

    <DataRecord id=""17"">
        <Function>Instantaneous value</Function>
        <StorageNumber>33</StorageNumber>
        <Tariff>0</Tariff>
        <Device>0</Device>
        <Unit>-</Unit>
        <Quantity>Time point (date)</Quantity>
        <Value>2011-12-01</Value>
    </DataRecord>

    <DataRecord id=""18"">
        <Function>Instantaneous value</Function>
        <StorageNumber>33</StorageNumber>
        <Tariff>0</Tariff>
        <Device>0</Device>
        <Unit>Wh</Unit>
        <Quantity>Energy</Quantity>
        <Value>3000.000000</Value>
    </DataRecord>

    <DataRecord id=""19"">
        <Function>Instantaneous value</Function>
        <StorageNumber>34</StorageNumber>
        <Tariff>0</Tariff>
        <Device>0</Device>
        <Unit>-</Unit>
        <Quantity>Time point (date)</Quantity>
        <Value>2011-11-01</Value>
    </DataRecord>

    <DataRecord id=""20"">
        <Function>Instantaneous value</Function>
        <StorageNumber>34</StorageNumber>
        <Tariff>0</Tariff>
        <Device>0</Device>
        <Unit>Wh</Unit>
        <Quantity>Energy</Quantity>
        <Value>3000.000000</Value>
    </DataRecord>

    <DataRecord id=""21"">
        <Function>Instantaneous value</Function>
        <StorageNumber>35</StorageNumber>
        <Tariff>0</Tariff>
        <Device>0</Device>
        <Unit>-</Unit>
        <Quantity>Time point (date)</Quantity>
        <Value>2011-10-01</Value>
    </DataRecord>

    <DataRecord id=""22"">
        <Function>Instantaneous value</Function>
        <StorageNumber>35</StorageNumber>
        <Tariff>0</Tariff>
        <Device>0</Device>
        <Unit>Wh</Unit>
        <Quantity>Energy</Quantity>
        <Value>3000.000000</Value>
    </DataRecord>

    <DataRecord id=""23"">
        <Function>Instantaneous value</Function>
        <StorageNumber>36</StorageNumber>
        <Tariff>0</Tariff>
        <Device>0</Device>
        <Unit>-</Unit>
        <Quantity>Time point (date)</Quantity>
        <Value>2011-09-01</Value>
    </DataRecord>

    <DataRecord id=""24"">
        <Function>Instantaneous value</Function>
        <StorageNumber>36</StorageNumber>
        <Tariff>0</Tariff>
        <Device>0</Device>
        <Unit>Wh</Unit>
        <Quantity>Energy</Quantity>
        <Value>0.000000</Value>
    </DataRecord>

    <DataRecord id=""25"">
        <Function>Instantaneous value</Function>
        <StorageNumber>37</StorageNumber>
        <Tariff>0</Tariff>
        <Device>0</Device>
        <Unit>-</Unit>
        <Quantity>Time point (date)</Quantity>
        <Value>2011-08-01</Value>
    </DataRecord>

    <DataRecord id=""26"">
        <Function>Instantaneous value</Function>
        <StorageNumber>37</StorageNumber>
        <Tariff>0</Tariff>
        <Device>0</Device>
        <Unit>Wh</Unit>
        <Quantity>Energy</Quantity>
        <Value>0.000000</Value>
    </DataRecord>

    <DataRecord id=""27"">
        <Function>Instantaneous value</Function>
        <StorageNumber>38</StorageNumber>
        <Tariff>0</Tariff>
        <Device>0</Device>
        <Unit>-</Unit>
        <Quantity>Time point (date)</Quantity>
        <Value>2011-07-01</Value>
    </DataRecord>

    <DataRecord id=""28"">
        <Function>Instantaneous value</Function>
        <StorageNumber>38</StorageNumber>
        <Tariff>0</Tariff>
        <Device>0</Device>
        <Unit>Wh</Unit>
        <Quantity>Energy</Quantity>
        <Value>0.000000</Value>
    </DataRecord>

    <DataRecord id=""29"">
        <Function>Instantaneous value</Function>
        <StorageNumber>39</StorageNumber>
        <Tariff>0</Tariff>
        <Device>0</Device>
        <Unit>-</Unit>
        <Quantity>Time point (date)</Quantity>
        <Value>2011-06-01</Value>
    </DataRecord>

    <DataRecord id=""30"">
        <Function>Instantaneous value</Function>
        <StorageNumber>39</StorageNumber>
        <Tariff>0</Tariff>
        <Device>0</Device>
        <Unit>Wh</Unit>
        <Quantity>Energy</Quantity>
        <Value>0.000000</Value>
    </DataRecord>

    <DataRecord id=""31"">
        <Function>Maximum value</Function>
        <StorageNumber>32</StorageNumber>
        <Tariff>0</Tariff>
        <Device>0</Device>
        <Unit>-</Unit>
        <Quantity>Time point (date)</Quantity>
        <Value>2012-01-01</Value>
    </DataRecord>

    <DataRecord id=""32"">
        <Function>Maximum value</Function>
        <StorageNumber>32</StorageNumber>
        <Tariff>0</Tariff>
        <Device>0</Device>
        <Unit>m^3/h</Unit>
        <Quantity>Volume flow</Quantity>
        <Value>0.001000</Value>
    </DataRecord>

    <DataRecord id=""33"">
        <Function>Maximum value</Function>
        <StorageNumber>32</StorageNumber>
        <Tariff>0</Tariff>
        <Device>0</Device>
        <Unit>W</Unit>
        <Quantity>Power</Quantity>
        <Value>0.000000</Value>
    </DataRecord>

</MBusData>
")%list = (true, true).
Proof. vm_compute. reflexivity. Qed.

(** minol_minocal_wr3 *)
Example frame_54 : agrees
  (txt "68 CD CD 68 08 00 72 59 27 80 31 4D 6A 82 04 2B 00 00 00 04 06 00 00 00 00 04 14 01 00 00 00 04 2D 00 00 00 00 04 3C 00 00 00 00 02 59 00 00 02 5D 00 00 84 04 06 00 00 00 00 C4 04 6D 00 00 81 11 94 01 2D 00 00 00 00 94 01 6D 1E 0B 8D 11 54 3C 01 00 00 00 54 6D 1E 07 78 13 8C 40 79 00 00 00 00 81 40 FD 09 07 84 40 13 01 00 00 00 C4 04 13 01 00 00 00 8C 80 40 79 00 00 00 00 84 80 40 13 01 00 00 00 81 80 40 FD 09 07 84 05 13 01 00 00 00 02 FD 17 04 00 04 6D 01 0C 8D 11 82 80 01 6C 81 11 84 80 01 06 00 00 00 00 84 C0 01 13 01 00 00 00 84 80 41 13 01 00 00 00 92 80 01 6C 81 11 94 80 01 3C 00 00 00 00 94 80 01 2D 00 00 00 00 AA 16

")%list
  (txt "<?xml version=""1.0"" encoding=""ISO-8859-1""?>
<MBusData>

    <SlaveInformation>
        <Id>31802759</Id>
        <Manufacturer>ZRM</Manufacturer>
        <Version>130</Version>
        <ProductName>Minol Minocal WR3</ProductName>
        <Medium>Heat: Outlet</Medium>
        <AccessNumber>43</AccessNumber>
        <Status>00</Status>
        <Signature>0000</Signature>
    </SlaveInformation>

    <DataRecord id=""0"">
        <Function>Instantaneous value</Function>
        <StorageNumber>0</StorageNumber>
        <Unit>Wh</Unit>
        <Quantity>Energy</Quantity>
        <Value>0.000000</Value>
    </DataRecord>

    <DataRecord id=""1"">
        <Function>Instantaneous value</Function>
        <StorageNumber>0</StorageNumber>
        <Unit>m^3</Unit>
        <Quantity>Volume</Quantity>
        <Value>0.010000</Value>
    </DataRecord>

    <DataRecord id=""2"">
        <Function>Instantaneous value</Function>
        <StorageNumber>0</StorageNumber>
        <Unit>W</Unit>
        <Quantity>Power</Quantity>
        <Value>0.000000</Value>
    </DataRecord>

    <DataRecord id=""3"">
        <Function>Instantaneous value</Function>
        <StorageNumber>0</StorageNumber>
        <Unit>m^3/h</Unit>
        <Quantity>Volume flow</Quantity>
        <Value>0.000000</Value>
    </DataRecord>

    <DataRecord id=""4"">
        <Function>Instantaneous value</Function>
        <StorageNumber>0</StorageNumber>
        <Unit>" ++ [176] ++ txt "C</Unit>
        <Quantity>Flow temperature</Quantity>
        <Value>0.000000</Value>
    </DataRecord>

    <DataRecord id=""5"">
        <Function>Instantaneous value</Function>
        <StorageNumber>0</StorageNumber>
        <Unit>" ++ [176] ++ txt "C</Unit>
        <Quantity>Return temperature</Quantity>
        <Value>0.000000</Value>
    </DataRecord>

    <DataRecord id=""6"">
        <Function>Instantaneous value</Function>
        <StorageNumber>8</StorageNumber>
        <Tariff>0</Tariff>
        <Device>0</Device>
        <Unit>Wh</Unit>
        <Quantity>Energy</Quantity>
        <Value>0.000000</Value>
    </DataRecord>

    <DataRecord id=""7"">
        <Function>Instantaneous value</Function>
        <StorageNumber>9</StorageNumber>
        <Tariff>0</Tariff>
        <Device>0</Device>
        <Unit>-</Unit>
        <Quantity>Time point (date &amp; time)</Quantity>
        <Value>2012-01-01T00:00:00Z</Value>
    </DataRecord>

    <DataRecord id=""8"">
        <Function>Maximum value</Function>
        <StorageNumber>2</StorageNumber>
        <Tariff>0</Tariff>
        <Device>0</Device>
        <Unit>W</Unit>
        <Quantity>Power</Quantity>
        <Value>0.000000</Value>
    </DataRecord>

    <DataRecord id=""9"">
        <Function>Maximum value</Function>
        <StorageNumber>2</StorageNumber>
        <Tariff>0</Tariff>
        <Device>0</Device>
        <Unit>-</Unit>
        <Quantity>Time point (date &amp; time)</Quantity>
        <Value>2012-01-13T11:30:00Z</Value>
    </DataRecord>

    <DataRecord id=""10"">
        <Function>Maximum value</Function>
        <StorageNumber>1</StorageNumber>
        <Unit>m^3/h</Unit>
        <Quantity>Volume flow</Quantity>
        <Value>0.010000</Value>
    </DataRecord>

    <DataRecord id=""11"">
        <Function>Maximum value</Function>
        <StorageNumber>1</StorageNumber>
        <Unit>-</Unit>
        <Quantity>Time point (date &amp; time)</Quantity>
        <Value>2011-03-24T07:30:00Z</Value>
    </DataRecord>

    <DataRecord id=""12"">
        <Function>Instantaneous value</Function>
        <StorageNumber>0</StorageNumber>
        <Tariff>0</Tariff>
        <Device>1</Device>
        <Unit></Unit>
        <Quantity>(Enhanced) Identification</Quantity>
        <Value>0.000000</Value>
    </DataRecord>

    <DataRecord id=""13"">
        <Function>Instantaneous value</Function>
        <StorageNumber>0</StorageNumber>
        <Tariff>0</Tariff>
        <Device>1</Device>
        <Unit></Unit>
        <Quantity>Medium</Quantity>
        <Value>7.000000</Value>
    </DataRecord>

    <DataRecord id=""14"">
        <Function>Instantaneous value</Function>
        <StorageNumber>0</StorageNumber>
        <Tariff>0</Tariff>
        <Device>1</Device>
        <Unit>m^3</Unit>
        <Quantity>Volume</Quantity>
        <Value>0.001000</Value>
    </DataRecord>

    <DataRecord id=""15"">
        <Function>Instantaneous value</Function>
        <StorageNumber>9</StorageNumber>
        <Tariff>0</Tariff>
        <Device>0</Device>
        <Unit>m^3</Unit>
        <Quantity>Volume</Quantity>
        <Value>0.001000</Value>
    </DataRecord>

    <DataRecord id=""16"">
        <Function>Instantaneous value</Function>
        <StorageNumber>0</StorageNumber>
        <Tariff>0</Tariff>
        <Device>2</Device>
        <Unit></Unit>
        <Quantity>(Enhanced) Identification</Quantity>
        <Value>0.000000</Value>
    </DataRecord>

    <DataRecord id=""17"">
        <Function>Instantaneous value</Function>
        <StorageNumber>0</StorageNumber>
        <Tariff>0</Tariff>
        <Device>2</Device>
        <Unit>m^3</Unit>
        <Quantity>Volume</Quantity>
        <Value>0.001000</Value>
    </DataRecord>

    <DataRecord id=""18"">
        <Function>Instantaneous value</Function>
        <StorageNumber>0</StorageNumber>
        <Tariff>0</Tariff>
        <Device>2</Device>
        <Unit></Unit>
        <Quantity>Medium</Quantity>
        <Value>7.000000</Value>
    </DataRecord>

    <DataRecord id=""19"">
        <Function>Instantaneous value</Function>
        <StorageNumber>10</StorageNumber>
        <Tariff>0</Tariff>
        <Device>0</Device>
        <Unit>m^3</Unit>
        <Quantity>Volume</Quantity>
        <Value>0.001000</Value>
    </DataRecord>

    <DataRecord id=""20"">
        <Function>Instantaneous value</Function>
        <StorageNumber>0</StorageNumber>
        <Unit></Unit>
        <Quantity>Error flags</Quantity>
        <Value>4.000000</Value>
    </DataRecord>

    <DataRecord id=""21"">
        <Function>Instantaneous value</Function>
        <StorageNumber>0</StorageNumber>
        <Unit>-</Unit>
        <Quantity>Time point (date &amp; time)</Quantity>
        <Value>2012-01-13T12:01:00Z</Value>
    </DataRecord>

    <DataRecord id=""22"">
        <Function>Instantaneous value</Function>
        <StorageNumber>32</StorageNumber>
        <Tariff>0</Tariff>
        <Device>0</Device>
        <Unit>-</Unit>
        <Quantity>Time point (date)</Quantity>
        <Value>2012-01-01</Value>
    </DataRecord>

    <DataRecord id=""23"">
        <Function>Instantaneous value</Function>
        <StorageNumber>32</StorageNumber>
        <Tariff>0</Tariff>
        <Device>0</Device>
        <Unit>Wh</Unit>
        <Quantity>Energy</Quantity>
        <Value>0.000000</Value>
    </DataRecord>

    <DataRecord id=""24"">
        <Function>Instantaneous value</Function>
        <StorageNumber>32</StorageNumber>
        <Tariff>0</Tariff>
        <Device>1</Device>
        <Unit>m^3</Unit>
        <Quantity>Volume</Quantity>
        <Value>0.001000</Value>
    </DataRecord>

    <DataRecord id=""25"">
        <Function>Instantaneous value</Function>
        <StorageNumber>32</StorageNumber>
        <Tariff>0</Tariff>
        <Device>2</Device>
        <Unit>m^3</Unit>
        <Quantity>Volume</Quantity>
        <Value>0.001000</Value>
    </DataRecord>

    <DataRecord id=""26"">
        <Function>Maximum value</Function>
        <StorageNumber>32</StorageNumber>
        <Tariff>0</Tariff>
        <Device>0</Device>
        <Unit>-</Unit>
        <Quantity>Time point (date)</Quantity>
        <Value>2012-01-01</Value>
    </DataRecord>

    <DataRecord id=""27"">
        <Function>Maximum value</Function>
        <StorageNumber>32</StorageNumber>
        <Tariff>0</Tariff>
        <Device>0</Device>
        <Unit>m^3/h</Unit>
        <Quantity>Volume flow</Quantity>
        <Value>0.000000</Value>
    </DataRecord>

    <DataRecord id=""28"">
        <Function>Maximum value</Function>
        <StorageNumber>32</StorageNumber>
        <Tariff>0</Tariff>
        <Device>0</Device>
        <Unit>W</Unit>
        <Quantity>Power</Quantity>
        <Value>0.000000</Value>
    </DataRecord>

</MBusData>
")%list = (true, true).
Proof. vm_compute. reflexivity. Qed.

(** nzr_dhz_5_63 *)
Example frame_55 : agrees
  (txt "68 32 32 68 08 05 72 08 06 10 30 52 3B 01 02 01 00 00 00 04 03 FA 04 00 00 04 83 7F FA 04 00 00 02 FD 48 44 09 02 FD 5B 00 00 02 2B 00 00 0C 78 08 06 10 30 0F 0E 71 16
")%list
  (txt "<?xml version=""1.0"" encoding=""ISO-8859-1""?>
<MBusData>

    <SlaveInformation>
        <Id>30100608</Id>
        <Manufacturer>NZR</Manufacturer>
        <Version>1</Version>
        <ProductName>NZR DHZ 5/63</ProductName>
        <Medium>Electricity</Medium>
        <AccessNumber>1</AccessNumber>
        <Status>00</Status>
        <Signature>0000</Signature>
    </SlaveInformation>

    <DataRecord id=""0"">
        <Function>Instantaneous value</Function>
        <StorageNumber>0</StorageNumber>
        <Unit>Wh</Unit>
        <Quantity>Energy</Quantity>
        <Value>1274.000000</Value>
    </DataRecord>

    <DataRecord id=""1"">
        <Function>Instantaneous value</Function>
        <StorageNumber>0</StorageNumber>
        <Unit>Wh</Unit>
        <Quantity>Energy</Quantity>
        <Value>1274.000000</Value>
    </DataRecord>

    <DataRecord id=""2"">
        <Function>Instantaneous value</Function>
        <StorageNumber>0</StorageNumber>
        <Unit>V</Unit>
        <Quantity>Voltage</Quantity>
        <Value>237.200000</Value>
    </DataRecord>

    <DataRecord id=""3"">
        <Function>Instantaneous value</Function>
        <StorageNumber>0</StorageNumber>
        <Unit>A</Unit>
        <Quantity>Current</Quantity>
        <Value>0.000000</Value>
    </DataRecord>

    <DataRecord id=""4"">
        <Function>Instantaneous value</Function>
        <StorageNumber>0</StorageNumber>
        <Unit>W</Unit>
        <Quantity>Power</Quantity>
        <Value>0.000000</Value>
    </DataRecord>

    <DataRecord id=""5"">
        <Function>Instantaneous value</Function>
        <StorageNumber>0</StorageNumber>
        <Unit></Unit>
        <Quantity>Fabrication No</Quantity>
        <Value>30100608.000000</Value>
    </DataRecord>

    <DataRecord id=""6"">
        <Function>Manufacturer specific</Function>
        <StorageNumber>0</StorageNumber>
        <Unit></Unit>
        <Quantity></Quantity>
        <Value>0E</Value>
    </DataRecord>

</MBusData>
")%list = (true, true).
Proof. vm_compute. reflexivity. Qed.

(** oms_frame1 *)
Example frame_56 : agrees
  (txt "68 20 20 68 08 FD 72 78 56 34 12 93 15 33 03 2A 00 00 00 0C 14 27 04 85 02 04 6D 32 37 1F 15 02 FD 17 00 00 89 16
")%list
  (txt "<?xml version=""1.0"" encoding=""ISO-8859-1""?>
<MBusData>

    <SlaveInformation>
        <Id>12345678</Id>
        <Manufacturer>ELS</Manufacturer>
        <Version>51</Version>
        <ProductName></ProductName>
        <Medium>Gas</Medium>
        <AccessNumber>42</AccessNumber>
        <Status>00</Status>
        <Signature>0000</Signature>
    </SlaveInformation>

    <DataRecord id=""0"">
        <Function>Instantaneous value</Function>
        <StorageNumber>0</StorageNumber>
        <Unit>m^3</Unit>
        <Quantity>Volume</Quantity>
        <Value>28504.270000</Value>
    </DataRecord>

    <DataRecord id=""1"">
        <Function>Instantaneous value</Function>
        <StorageNumber>0</StorageNumber>
        <Unit>-</Unit>
        <Quantity>Time point (date &amp; time)</Quantity>
        <Value>2008-05-31T23:50:00Z</Value>
    </DataRecord>

    <DataRecord id=""2"">
        <Function>Instantaneous value</Function>
        <StorageNumber>0</StorageNumber>
        <Unit></Unit>
        <Quantity>Error flags</Quantity>
        <Value>0.000000</Value>
    </DataRecord>

</MBusData>
")%list = (true, true).
Proof. vm_compute. reflexivity. Qed.

(** oms_frame2 *)
Example frame_57 : agrees
  (txt "68 29 29 68 08 FD 72 44 22 75 92 24 23 29 07 1F 00 00 00 0C 13 27 04 85 02 0B 3B 27 01 00 4C 13 19 54 44 01 42 6C FF 0C 02 FD 17 00 00 99 16
")%list
  (txt "<?xml version=""1.0"" encoding=""ISO-8859-1""?>
<MBusData>

    <SlaveInformation>
        <Id>92752244</Id>
        <Manufacturer>HYD</Manufacturer>
        <Version>41</Version>
        <ProductName></ProductName>
        <Medium>Water</Medium>
        <AccessNumber>31</AccessNumber>
        <Status>00</Status>
        <Signature>0000</Signature>
    </SlaveInformation>

    <DataRecord id=""0"">
        <Function>Instantaneous value</Function>
        <StorageNumber>0</StorageNumber>
        <Unit>m^3</Unit>
        <Quantity>Volume</Quantity>
        <Value>2850.427000</Value>
    </DataRecord>

    <DataRecord id=""1"">
        <Function>Instantaneous value</Function>
        <StorageNumber>0</StorageNumber>
        <Unit>m^3/h</Unit>
        <Quantity>Volume flow</Quantity>
        <Value>0.127000</Value>
    </DataRecord>

    <DataRecord id=""2"">
        <Function>Instantaneous value</Function>
        <StorageNumber>1</StorageNumber>
        <Unit>m^3</Unit>
        <Quantity>Volume</Quantity>
        <Value>1445.419000</Value>
    </DataRecord>

    <DataRecord id=""3"">
        <Function>Instantaneous value</Function>
        <StorageNumber>1</StorageNumber>
        <Unit>-</Unit>
        <Quantity>Time point (date)</Quantity>
        <Value>2007-12-31</Value>
    </DataRecord>

    <DataRecord id=""4"">
        <Function>Instantaneous value</Function>
        <StorageNumber>0</StorageNumber>
        <Unit></Unit>
        <Quantity>Error flags</Quantity>
        <Value>0.000000</Value>
    </DataRecord>

</MBusData>
")%list = (true, true).
Proof. vm_compute. reflexivity. Qed.

(** oms_frame3 *)
Example frame_58 : agrees
  (txt "68 3C 3C 68 08 FD 72 78 56 34 12 24 23 2A 04 26 00 00 00 0C 06 27 04 85 02 0C 13 76 34 70 00 4C 06 19 54 44 01 42 6C FF 0C 0B 3B 27 01 00 0B 2A 97 32 00 0A 5A 43 04 0A 5E 51 02 02 FD 17 00 00 C8 16 
")%list
  (txt "<?xml version=""1.0"" encoding=""ISO-8859-1""?>
<MBusData>

    <SlaveInformation>
        <Id>12345678</Id>
        <Manufacturer>HYD</Manufacturer>
        <Version>42</Version>
        <ProductName></ProductName>
        <Medium>Heat: Outlet</Medium>
        <AccessNumber>38</AccessNumber>
        <Status>00</Status>
        <Signature>0000</Signature>
    </SlaveInformation>

    <DataRecord id=""0"">
        <Function>Instantaneous value</Function>
        <StorageNumber>0</StorageNumber>
        <Unit>Wh</Unit>
        <Quantity>Energy</Quantity>
        <Value>2850427000.000000</Value>
    </DataRecord>

    <DataRecord id=""1"">
        <Function>Instantaneous value</Function>
        <StorageNumber>0</StorageNumber>
        <Unit>m^3</Unit>
        <Quantity>Volume</Quantity>
        <Value>703.476000</Value>
    </DataRecord>

    <DataRecord id=""2"">
        <Function>Instantaneous value</Function>
        <StorageNumber>1</StorageNumber>
        <Unit>Wh</Unit>
        <Quantity>Energy</Quantity>
        <Value>1445419000.000000</Value>
    </DataRecord>

    <DataRecord id=""3"">
        <Function>Instantaneous value</Function>
        <StorageNumber>1</StorageNumber>
        <Unit>-</Unit>
        <Quantity>Time point (date)</Quantity>
        <Value>2007-12-31</Value>
    </DataRecord>

    <DataRecord id=""4"">
        <Function>Instantaneous value</Function>
        <StorageNumber>0</StorageNumber>
        <Unit>m^3/h</Unit>
        <Quantity>Volume flow</Quantity>
        <Value>0.127000</Value>
    </DataRecord>

    <DataRecord id=""5"">
        <Function>Instantaneous value</Function>
        <StorageNumber>0</StorageNumber>
        <Unit>W</Unit>
        <Quantity>Power</Quantity>
        <Value>329.700000</Value>
    </DataRecord>

    <DataRecord id=""6"">
        <Function>Instantaneous value</Function>
        <StorageNumber>0</StorageNumber>
        <Unit>" ++ [176] ++ txt "C</Unit>
        <Quantity>Flow temperature</Quantity>
        <Value>44.300000</Value>
    </DataRecord>

    <DataRecord id=""7"">
        <Function>Instantaneous value</Function>
        <StorageNumber>0</StorageNumber>
        <Unit>" ++ [176] ++ txt "C</Unit>
        <Quantity>Return temperature</Quantity>
        <Value>25.100000</Value>
    </DataRecord>

    <DataRecord id=""8"">
        <Function>Instantaneous value</Function>
        <StorageNumber>0</StorageNumber>
        <Unit></Unit>
        <Quantity>Error flags</Quantity>
        <Value>0.000000</Value>
    </DataRecord>

</MBusData>
")%list = (true, true).
Proof. vm_compute. reflexivity. Qed.

(** ram_modularis *)
Example frame_59 : agrees
  (txt "68 C4 C4 68 08 00 72 76 57 02 00 2D 48 03 07 8B 00 00 00 04 13 84 27 00 00 04 6D 28 15 B2 1A 42 6C BC 19 44 13 C9 20 00 00 42 EC 7E DC 19 0C 78 76 57 02 00 82 01 6C BE 19 84 01 13 4F 21 00 00 C2 01 6C 9F 1A C4 01 13 FB E0 F5 05 82 02 6C 9E 1B 84 02 13 F9 E0 F5 05 C2 02 6C 9F 1C C4 02 13 0E 03 00 00 82 03 6C BF 11 84 03 13 89 07 00 00 C2 03 6C BC 12 C4 03 13 14 0C 00 00 82 04 6C BF 13 84 04 13 35 12 00 00 C2 04 6C BE 14 C4 04 13 9F 12 00 00 82 05 6C BF 15 84 05 13 04 14 00 00 C2 05 6C BE 16 C4 05 13 38 14 00 00 82 06 6C BF 17 84 06 13 7E 14 00 00 C2 06 6C BF 18 C4 06 13 24 16 00 00 0F 01 00 00 82 16")%list
  (txt "<?xml version=""1.0"" encoding=""ISO-8859-1""?>
<MBusData>

    <SlaveInformation>
        <Id>25776</Id>
        <Manufacturer>RAM</Manufacturer>
        <Version>3</Version>
        <ProductName>Rossweiner ETK/ETW Modularis</ProductName>
        <Medium>Water</Medium>
        <AccessNumber>139</AccessNumber>
        <Status>00</Status>
        <Signature>0000</Signature>
    </SlaveInformation>

    <DataRecord id=""0"">
        <Function>Instantaneous value</Function>
        <StorageNumber>0</StorageNumber>
        <Unit>m^3</Unit>
        <Quantity>Volume</Quantity>
        <Value>10.116000</Value>
    </DataRecord>

    <DataRecord id=""1"">
        <Function>Instantaneous value</Function>
        <StorageNumber>0</StorageNumber>
        <Unit>-</Unit>
        <Quantity>Time point (date &amp; time)</Quantity>
        <Value>2013-10-18T21:40:00Z</Value>
    </DataRecord>

    <DataRecord id=""2"">
        <Function>Instantaneous value</Function>
        <StorageNumber>1</StorageNumber>
        <Unit>-</Unit>
        <Quantity>Time point (date)</Quantity>
        <Value>2013-09-28</Value>
    </DataRecord>

    <DataRecord id=""3"">
        <Function>Instantaneous value</Function>
        <StorageNumber>1</StorageNumber>
        <Unit>m^3</Unit>
        <Quantity>Volume</Quantity>
        <Value>8.393000</Value>
    </DataRecord>

    <DataRecord id=""4"">
        <Function>Instantaneous value</Function>
        <StorageNumber>1</StorageNumber>
        <Unit>-</Unit>
        <Quantity>Time point (date)</Quantity>
        <Value>2014-09-28</Value>
    </DataRecord>

    <DataRecord id=""5"">
        <Function>Instantaneous value</Function>
        <StorageNumber>0</StorageNumber>
        <Unit></Unit>
        <Quantity>Fabrication No</Quantity>
        <Value>25776.000000</Value>
    </DataRecord>

    <DataRecord id=""6"">
        <Function>Instantaneous value</Function>
        <StorageNumber>2</StorageNumber>
        <Tariff>0</Tariff>
        <Device>0</Device>
        <Unit>-</Unit>
        <Quantity>Time point (date)</Quantity>
        <Value>2013-09-30</Value>
    </DataRecord>

    <DataRecord id=""7"">
        <Function>Instantaneous value</Function>
        <StorageNumber>2</StorageNumber>
        <Tariff>0</Tariff>
        <Device>0</Device>
        <Unit>m^3</Unit>
        <Quantity>Volume</Quantity>
        <Value>8.527000</Value>
    </DataRecord>

    <DataRecord id=""8"">
        <Function>Instantaneous value</Function>
        <StorageNumber>3</StorageNumber>
        <Tariff>0</Tariff>
        <Device>0</Device>
        <Unit>-</Unit>
        <Quantity>Time point (date)</Quantity>
        <Value>2012-10-31</Value>
    </DataRecord>

    <DataRecord id=""9"">
        <Function>Instantaneous value</Function>
        <StorageNumber>3</StorageNumber>
        <Tariff>0</Tariff>
        <Device>0</Device>
        <Unit>m^3</Unit>
        <Quantity>Volume</Quantity>
        <Value>99999.995000</Value>
    </DataRecord>

    <DataRecord id=""10"">
        <Function>Instantaneous value</Function>
        <StorageNumber>4</StorageNumber>
        <Tariff>0</Tariff>
        <Device>0</Device>
        <Unit>-</Unit>
        <Quantity>Time point (date)</Quantity>
        <Value>2012-11-30</Value>
    </DataRecord>

    <DataRecord id=""11"">
        <Function>Instantaneous value</Function>
        <StorageNumber>4</StorageNumber>
        <Tariff>0</Tariff>
        <Device>0</Device>
        <Unit>m^3</Unit>
        <Quantity>Volume</Quantity>
        <Value>99999.993000</Value>
    </DataRecord>

    <DataRecord id=""12"">
        <Function>Instantaneous value</Function>
        <StorageNumber>5</StorageNumber>
        <Tariff>0</Tariff>
        <Device>0</Device>
        <Unit>-</Unit>
        <Quantity>Time point (date)</Quantity>
        <Value>2012-12-31</Value>
    </DataRecord>

    <DataRecord id=""13"">
        <Function>Instantaneous value</Function>
        <StorageNumber>5</StorageNumber>
        <Tariff>0</Tariff>
        <Device>0</Device>
        <Unit>m^3</Unit>
        <Quantity>Volume</Quantity>
        <Value>0.782000</Value>
    </DataRecord>

    <DataRecord id=""14"">
        <Function>Instantaneous value</Function>
        <StorageNumber>6</StorageNumber>
        <Tariff>0</Tariff>
        <Device>0</Device>
        <Unit>-</Unit>
        <Quantity>Time point (date)</Quantity>
        <Value>2013-01-31</Value>
    </DataRecord>

    <DataRecord id=""15"">
        <Function>Instantaneous value</Function>
        <StorageNumber>6</StorageNumber>
        <Tariff>0</Tariff>
        <Device>0</Device>
        <Unit>m^3</Unit>
        <Quantity>Volume</Quantity>
        <Value>1.929000</Value>
    </DataRecord>

    <DataRecord id=""16"">
        <Function>Instantaneous value</Function>
        <StorageNumber>7</StorageNumber>
        <Tariff>0</Tariff>
        <Device>0</Device>
        <Unit>-</Unit>
        <Quantity>Time point (date)</Quantity>
        <Value>2013-02-28</Value>
    </DataRecord>

    <DataRecord id=""17"">
        <Function>Instantaneous value</Function>
        <StorageNumber>7</StorageNumber>
        <Tariff>0</Tariff>
        <Device>0</Device>
        <Unit>m^3</Unit>
        <Quantity>Volume</Quantity>
        <Value>3.092000</Value>
    </DataRecord>

    <DataRecord id=""18"">
        <Function>Instantaneous value</Function>
        <StorageNumber>8</StorageNumber>
        <Tariff>0</Tariff>
        <Device>0</Device>
        <Unit>-</Unit>
        <Quantity>Time point (date)</Quantity>
        <Value>2013-03-31</Value>
    </DataRecord>

    <DataRecord id=""19"">
        <Function>Instantaneous value</Function>
        <StorageNumber>8</StorageNumber>
        <Tariff>0</Tariff>
        <Device>0</Device>
        <Unit>m^3</Unit>
        <Quantity>Volume</Quantity>
        <Value>4.661000</Value>
    </DataRecord>

    <DataRecord id=""20"">
        <Function>Instantaneous value</Function>
        <StorageNumber>9</StorageNumber>
        <Tariff>0</Tariff>
        <Device>0</Device>
        <Unit>-</Unit>
        <Quantity>Time point (date)</Quantity>
        <Value>2013-04-30</Value>
    </DataRecord>

    <DataRecord id=""21"">
        <Function>Instantaneous value</Function>
        <StorageNumber>9</StorageNumber>
        <Tariff>0</Tariff>
        <Device>0</Device>
        <Unit>m^3</Unit>
        <Quantity>Volume</Quantity>
        <Value>4.767000</Value>
    </DataRecord>

    <DataRecord id=""22"">
        <Function>Instantaneous value</Function>
        <StorageNumber>10</StorageNumber>
        <Tariff>0</Tariff>
        <Device>0</Device>
        <Unit>-</Unit>
        <Quantity>Time point (date)</Quantity>
        <Value>2013-05-31</Value>
    </DataRecord>

    <DataRecord id=""23"">
        <Function>Instantaneous value</Function>
        <StorageNumber>10</StorageNumber>
        <Tariff>0</Tariff>
        <Device>0</Device>
        <Unit>m^3</Unit>
        <Quantity>Volume</Quantity>
        <Value>5.124000</Value>
    </DataRecord>

    <DataRecord id=""24"">
        <Function>Instantaneous value</Function>
        <StorageNumber>11</StorageNumber>
        <Tariff>0</Tariff>
        <Device>0</Device>
        <Unit>-</Unit>
        <Quantity>Time point (date)</Quantity>
        <Value>2013-06-30</Value>
    </DataRecord>

    <DataRecord id=""25"">
        <Function>Instantaneous value</Function>
        <StorageNumber>11</StorageNumber>
        <Tariff>0</Tariff>
        <Device>0</Device>
        <Unit>m^3</Unit>
        <Quantity>Volume</Quantity>
        <Value>5.176000</Value>
    </DataRecord>

    <DataRecord id=""26"">
        <Function>Instantaneous value</Function>
        <StorageNumber>12</StorageNumber>
        <Tariff>0</Tariff>
        <Device>0</Device>
        <Unit>-</Unit>
        <Quantity>Time point (date)</Quantity>
        <Value>2013-07-31</Value>
    </DataRecord>

    <DataRecord id=""27"">
        <Function>Instantaneous value</Function>
        <StorageNumber>12</StorageNumber>
        <Tariff>0</Tariff>
        <Device>0</Device>
        <Unit>m^3</Unit>
        <Quantity>Volume</Quantity>
        <Value>5.246000</Value>
    </DataRecord>

    <DataRecord id=""28"">
        <Function>Instantaneous value</Function>
        <StorageNumber>13</StorageNumber>
        <Tariff>0</Tariff>
        <Device>0</Device>
        <Unit>-</Unit>
        <Quantity>Time point (date)</Quantity>
        <Value>2013-08-31</Value>
    </DataRecord>

    <DataRecord id=""29"">
        <Function>Instantaneous value</Function>
        <StorageNumber>13</StorageNumber>
        <Tariff>0</Tariff>
        <Device>0</Device>
        <Unit>m^3</Unit>
        <Quantity>Volume</Quantity>
        <Value>5.668000</Value>
    </DataRecord>

    <DataRecord id=""30"">
        <Function>Manufacturer specific</Function>
        <StorageNumber>0</StorageNumber>
        <Unit></Unit>
        <Quantity></Quantity>
        <Value>01 00 00</Value>
    </DataRecord>

</MBusData>
")%list = (true, true).
Proof. vm_compute. reflexivity. Qed.

(** rel_padpuls2 *)
Example frame_60 : agrees
  (txt "68 2F 2F 68 08 04 72 04 00 00 00 AC 48 12 00 01 00 00 00 0C 00 00 00 00 00 04 6D 10 0D 34 09 42 6C 1F 0C 4C 00 00 00 00 00 42 EC 7E 3F 0C 0F 43 01 01 00 D0 16")%list
  (txt "<?xml version=""1.0"" encoding=""ISO-8859-1""?>
<MBusData>

    <SlaveInformation>
        <Id>4</Id>
        <Manufacturer>REL</Manufacturer>
        <Version>18</Version>
        <ProductName>Relay PadPuls M4</ProductName>
        <Medium>Other</Medium>
        <AccessNumber>1</AccessNumber>
        <Status>00</Status>
        <Signature>0000</Signature>
    </SlaveInformation>

    <DataRecord id=""0"">
        <Function>Instantaneous value</Function>
        <StorageNumber>0</StorageNumber>
        <Unit>Wh</Unit>
        <Quantity>Energy</Quantity>
        <Value>0.000000</Value>
    </DataRecord>

    <DataRecord id=""1"">
        <Function>Instantaneous value</Function>
        <StorageNumber>0</StorageNumber>
        <Unit>-</Unit>
        <Quantity>Time point (date &amp; time)</Quantity>
        <Value>2001-09-20T13:16:00Z</Value>
    </DataRecord>

    <DataRecord id=""2"">
        <Function>Instantaneous value</Function>
        <StorageNumber>1</StorageNumber>
        <Unit>-</Unit>
        <Quantity>Time point (date)</Quantity>
        <Value>2000-12-31</Value>
    </DataRecord>

    <DataRecord id=""3"">
        <Function>Instantaneous value</Function>
        <StorageNumber>1</StorageNumber>
        <Unit>Wh</Unit>
        <Quantity>Energy</Quantity>
        <Value>0.000000</Value>
    </DataRecord>

    <DataRecord id=""4"">
        <Function>Instantaneous value</Function>
        <StorageNumber>1</StorageNumber>
        <Unit>-</Unit>
        <Quantity>Time point (date)</Quantity>
        <Value>2001-12-31</Value>
    </DataRecord>

    <DataRecord id=""5"">
        <Function>Manufacturer specific</Function>
        <StorageNumber>0</StorageNumber>
        <Unit></Unit>
        <Quantity></Quantity>
        <Value>43 01 01 00</Value>
    </DataRecord>

</MBusData>
")%list = (true, true).
Proof. vm_compute. reflexivity. Qed.

(** rel_padpuls3 *)
Example frame_61 : agrees
  (txt "68 2F 2F 68 08 01 72 01 01 03 01 AC 48 40 08 1E 00 00 00 0C 6E 87 19 00 00 04 6D 29 0A 1F 0C 42 6C 1F 0C 4C 6E 02 13 00 00 42 EC 7E 3F 0C 0F C0 01 01 0C 40 16")%list
  (txt "<?xml version=""1.0"" encoding=""ISO-8859-1""?>
<MBusData>

    <SlaveInformation>
        <Id>1030101</Id>
        <Manufacturer>REL</Manufacturer>
        <Version>64</Version>
        <ProductName>Relay PadPuls M2</ProductName>
        <Medium>Heat Cost Allocator</Medium>
        <AccessNumber>30</AccessNumber>
        <Status>00</Status>
        <Signature>0000</Signature>
    </SlaveInformation>

    <DataRecord id=""0"">
        <Function>Instantaneous value</Function>
        <StorageNumber>0</StorageNumber>
        <Unit>Units for H.C.A.</Unit>
        <Quantity>H.C.A.</Quantity>
        <Value>1987.000000</Value>
    </DataRecord>

    <DataRecord id=""1"">
        <Function>Instantaneous value</Function>
        <StorageNumber>0</StorageNumber>
        <Unit>-</Unit>
        <Quantity>Time point (date &amp; time)</Quantity>
        <Value>2000-12-31T10:41:00Z</Value>
    </DataRecord>

    <DataRecord id=""2"">
        <Function>Instantaneous value</Function>
        <StorageNumber>1</StorageNumber>
        <Unit>-</Unit>
        <Quantity>Time point (date)</Quantity>
        <Value>2000-12-31</Value>
    </DataRecord>

    <DataRecord id=""3"">
        <Function>Instantaneous value</Function>
        <StorageNumber>1</StorageNumber>
        <Unit>Units for H.C.A.</Unit>
        <Quantity>H.C.A.</Quantity>
        <Value>1302.000000</Value>
    </DataRecord>

    <DataRecord id=""4"">
        <Function>Instantaneous value</Function>
        <StorageNumber>1</StorageNumber>
        <Unit>-</Unit>
        <Quantity>Time point (date)</Quantity>
        <Value>2001-12-31</Value>
    </DataRecord>

    <DataRecord id=""5"">
        <Function>Manufacturer specific</Function>
        <StorageNumber>0</StorageNumber>
        <Unit></Unit>
        <Quantity></Quantity>
        <Value>C0 01 01 0C</Value>
    </DataRecord>

</MBusData>
")%list = (true, true).
Proof. vm_compute. reflexivity. Qed.

(** sen_pollucom_e *)
Example frame_62 : agrees
  (txt "68 42 42 68 08 00 72 45 00 94 63 AE 4C 08 04 F9 00 00 00 0C 06 19 90 01 00 0C 13 19 11 62 01 0C 3B 00 00 00 00 0C 2B 00 00 00 00 02 5A 67 01 02 5E E9 00 03 60 46 31 00 0C 78 45 00 94 63 0C FD 10 45 00 94 63 1F B6 16
")%list
  (txt "<?xml version=""1.0"" encoding=""ISO-8859-1""?>
<MBusData>

    <SlaveInformation>
        <Id>63940045</Id>
        <Manufacturer>SEN</Manufacturer>
        <Version>8</Version>
        <ProductName>Sensus PolluCom E</ProductName>
        <Medium>Heat: Outlet</Medium>
        <AccessNumber>249</AccessNumber>
        <Status>00</Status>
        <Signature>0000</Signature>
    </SlaveInformation>

    <DataRecord id=""0"">
        <Function>Instantaneous value</Function>
        <StorageNumber>0</StorageNumber>
        <Unit>Wh</Unit>
        <Quantity>Energy</Quantity>
        <Value>19019000.000000</Value>
    </DataRecord>

    <DataRecord id=""1"">
        <Function>Instantaneous value</Function>
        <StorageNumber>0</StorageNumber>
        <Unit>m^3</Unit>
        <Quantity>Volume</Quantity>
        <Value>1621.119000</Value>
    </DataRecord>

    <DataRecord id=""2"">
        <Function>Instantaneous value</Function>
        <StorageNumber>0</StorageNumber>
        <Unit>m^3/h</Unit>
        <Quantity>Volume flow</Quantity>
        <Value>0.000000</Value>
    </DataRecord>

    <DataRecord id=""3"">
        <Function>Instantaneous value</Function>
        <StorageNumber>0</StorageNumber>
        <Unit>W</Unit>
        <Quantity>Power</Quantity>
        <Value>0.000000</Value>
    </DataRecord>

    <DataRecord id=""4"">
        <Function>Instantaneous value</Function>
        <StorageNumber>0</StorageNumber>
        <Unit>" ++ [176] ++ txt "C</Unit>
        <Quantity>Flow temperature</Quantity>
        <Value>35.900000</Value>
    </DataRecord>

    <DataRecord id=""5"">
        <Function>Instantaneous value</Function>
        <StorageNumber>0</StorageNumber>
        <Unit>" ++ [176] ++ txt "C</Unit>
        <Quantity>Return temperature</Quantity>
        <Value>23.300000</Value>
    </DataRecord>

    <DataRecord id=""6"">
        <Function>Instantaneous value</Function>
        <StorageNumber>0</StorageNumber>
        <Unit>K</Unit>
        <Quantity>Temperature difference</Quantity>
        <Value>12.614000</Value>
    </DataRecord>

    <DataRecord id=""7"">
        <Function>Instantaneous value</Function>
        <StorageNumber>0</StorageNumber>
        <Unit></Unit>
        <Quantity>Fabrication No</Quantity>
        <Value>63940045.000000</Value>
    </DataRecord>

    <DataRecord id=""8"">
        <Function>Instantaneous value</Function>
        <StorageNumber>0</StorageNumber>
        <Unit></Unit>
        <Quantity>Customer location</Quantity>
        <Value>63940045.000000</Value>
    </DataRecord>

    <DataRecord id=""9"">
        <Function>More records follow</Function>
        <StorageNumber>0</StorageNumber>
        <Unit></Unit>
        <Quantity></Quantity>
        <Value></Value>
    </DataRecord>

</MBusData>
")%list = (true, true).
Proof. vm_compute. reflexivity. Qed.

(** sen_pollusonic_2 *)
Example frame_63 : agrees
  (txt "68 13 13 68 08 01 73 93 92 91 90 10 00 05 69 31 65 00 00 69 00 00 00 3F 16
")%list
  (txt "<?xml version=""1.0"" encoding=""ISO-8859-1""?>
<MBusData>

    <SlaveInformation>
        <Id>90919293</Id>
        <Medium>Heat</Medium>
        <AccessNumber>16</AccessNumber>
        <Status>00</Status>
    </SlaveInformation>

    <DataRecord id=""0"">
        <Function>Actual value</Function>
        <Unit>kWh</Unit>
        <Value>6531</Value>
    </DataRecord>

    <DataRecord id=""1"">
        <Function>Actual value</Function>
        <Unit>l</Unit>
        <Value>69</Value>
    </DataRecord>

</MBusData>
")%list = (true, true).
Proof. vm_compute. reflexivity. Qed.

(** sen_pollutherm *)
Example frame_64 : agrees
  (txt "68 42 42 68 08 08 72 76 00 05 21 18 4E 31 04 51 00 00 00 0C 07 64 08 00 00 0C 14 92 98 79 00 0C 7B 02 03 00 00 0C 2C 58 54 00 00 0A 5A 55 07 0A 5E 94 05 0B 60 76 60 01 0C 78 76 00 05 21 0C FD 10 76 00 05 21 1F B3 16
")%list
  (txt "<?xml version=""1.0"" encoding=""ISO-8859-1""?>
<MBusData>

    <SlaveInformation>
        <Id>21050076</Id>
        <Manufacturer>SPX</Manufacturer>
        <Version>49</Version>
        <ProductName>Sensus PolluTherm</ProductName>
        <Medium>Heat: Outlet</Medium>
        <AccessNumber>81</AccessNumber>
        <Status>00</Status>
        <Signature>0000</Signature>
    </SlaveInformation>

    <DataRecord id=""0"">
        <Function>Instantaneous value</Function>
        <StorageNumber>0</StorageNumber>
        <Unit>Wh</Unit>
        <Quantity>Energy</Quantity>
        <Value>8640000.000000</Value>
    </DataRecord>

    <DataRecord id=""1"">
        <Function>Instantaneous value</Function>
        <StorageNumber>0</StorageNumber>
        <Unit>m^3</Unit>
        <Quantity>Volume</Quantity>
        <Value>7998.920000</Value>
    </DataRecord>

    <DataRecord id=""2"">
    </DataRecord>

    <DataRecord id=""3"">
        <Function>Instantaneous value</Function>
        <StorageNumber>0</StorageNumber>
        <Unit>W</Unit>
        <Quantity>Power</Quantity>
        <Value>54580.000000</Value>
    </DataRecord>

    <DataRecord id=""4"">
        <Function>Instantaneous value</Function>
        <StorageNumber>0</StorageNumber>
        <Unit>" ++ [176] ++ txt "C</Unit>
        <Quantity>Flow temperature</Quantity>
        <Value>75.500000</Value>
    </DataRecord>

    <DataRecord id=""5"">
        <Function>Instantaneous value</Function>
        <StorageNumber>0</StorageNumber>
        <Unit>" ++ [176] ++ txt "C</Unit>
        <Quantity>Return temperature</Quantity>
        <Value>59.400000</Value>
    </DataRecord>

    <DataRecord id=""6"">
        <Function>Instantaneous value</Function>
        <StorageNumber>0</StorageNumber>
        <Unit>K</Unit>
        <Quantity>Temperature difference</Quantity>
        <Value>16.076000</Value>
    </DataRecord>

    <DataRecord id=""7"">
        <Function>Instantaneous value</Function>
        <StorageNumber>0</StorageNumber>
        <Unit></Unit>
        <Quantity>Fabrication No</Quantity>
        <Value>21050076.000000</Value>
    </DataRecord>

    <DataRecord id=""8"">
        <Function>Instantaneous value</Function>
        <StorageNumber>0</StorageNumber>
        <Unit></Unit>
        <Quantity>Customer location</Quantity>
        <Value>21050076.000000</Value>
    </DataRecord>

    <DataRecord id=""9"">
        <Function>More records follow</Function>
        <StorageNumber>0</StorageNumber>
        <Unit></Unit>
        <Quantity></Quantity>
        <Value></Value>
    </DataRecord>

</MBusData>
")%list = (true, true).
Proof. vm_compute. reflexivity. Qed.

(** siemens_rvd235 *)
Example frame_65 : agrees
  (txt "68 96 96 68 08 00 72 04 11 29 00 7A 32 29 20 0C 28 00 00 0C 78 20 71 04 00 06 FD 0C FC 03 6D 00 2D 00 0D FD 0B 06 35 33 32 44 56 52 81 30 FD 7C 01 81 20 FD 7C 00 01 FD 7C 00 0F 02 78 04 00 02 7A 04 00 32 00 1E 09 32 08 00 00 34 10 00 00 00 00 31 18 00 34 18 FF FF FF FF 71 18 00 74 18 FF FF FF FF B1 01 18 00 B4 01 18 FF FF FF FF F1 01 18 00 F4 01 18 FF FF FF FF B1 02 18 00 B4 02 18 FF FF FF FF F1 02 18 00 31 28 00 34 28 FF FF FF FF 71 28 00 01 01 00 01 09 00 24 16
")%list
  (txt "<?xml version=""1.0"" encoding=""ISO-8859-1""?>
<MBusData>

    <SlaveInformation>
        <Id>291104</Id>
        <Manufacturer>LSZ</Manufacturer>
        <Version>41</Version>
        <ProductName></ProductName>
        <Medium>Breaker: Electricity</Medium>
        <AccessNumber>12</AccessNumber>
        <Status>28</Status>
        <Signature>0000</Signature>
    </SlaveInformation>

    <DataRecord id=""0"">
        <Function>Instantaneous value</Function>
        <StorageNumber>0</StorageNumber>
        <Unit></Unit>
        <Quantity>Fabrication No</Quantity>
        <Value>47120.000000</Value>
    </DataRecord>

    <DataRecord id=""1"">
        <Function>Instantaneous value</Function>
        <StorageNumber>0</StorageNumber>
        <Unit></Unit>
        <Quantity>Model / Version</Quantity>
        <Value>193280672764.000000</Value>
    </DataRecord>

    <DataRecord id=""2"">
        <Function>Instantaneous value</Function>
        <StorageNumber>0</StorageNumber>
        <Unit></Unit>
        <Quantity>Parameter set identification</Quantity>
        <Value>RVD235</Value>
    </DataRecord>

    <DataRecord id=""3"">
        <Function>Instantaneous value</Function>
        <StorageNumber>0</StorageNumber>
        <Tariff>3</Tariff>
        <Device>0</Device>
        <Unit>Reserved</Unit>
        <Quantity>Reserved</Quantity>
        <Value>1.000000</Value>
    </DataRecord>

    <DataRecord id=""4"">
        <Function>Instantaneous value</Function>
        <StorageNumber>0</StorageNumber>
        <Tariff>2</Tariff>
        <Device>0</Device>
        <Unit>Reserved</Unit>
        <Quantity>Reserved</Quantity>
        <Value>0.000000</Value>
    </DataRecord>

    <DataRecord id=""5"">
        <Function>Instantaneous value</Function>
        <StorageNumber>0</StorageNumber>
        <Unit>Reserved</Unit>
        <Quantity>Reserved</Quantity>
        <Value>0.000000</Value>
    </DataRecord>

    <DataRecord id=""6"">
        <Function>Manufacturer specific</Function>
        <StorageNumber>0</StorageNumber>
        <Unit></Unit>
        <Quantity></Quantity>
        <Value>02 78 04 00 02 7A 04 00 32 00 1E 09 32 08 00 00 34 10 00 00 00 00 31 18 00 34 18 FF FF FF FF 71 18 00 74 18 FF FF FF FF B1 01 18 00 B4 01 18 FF FF FF FF F1 01 18 00 F4 01 18 FF FF FF FF B1 02 18 00 B4 02 18 FF FF FF FF F1 02 18 00 31 28 00 34 28 FF FF FF FF 71 28 00 01 01 00 01 09 00</Value>
    </DataRecord>

</MBusData>
")%list = (true, true).
Proof. vm_compute. reflexivity. Qed.

(** siemens_water *)
Example frame_66 : agrees
  (txt "68 59 59 68 08 00 72 82 13 02 08 65 32 99 06 EB 00 00 00 0C 13 01 01 00 00 0B 22 52 09 02 04 6D 38 08 6E 19 32 6C 00 00 0C 78 82 13 02 08 06 FD 0C 0A 00 01 00 FA 01 0D FD 0B 05 31 32 48 46 57 01 FD 0E 00 0B 3B 00 00 00 0F 37 FD 17 00 00 00 00 00 00 00 00 02 7A 0D 00 02 78 0D 00 11 16
")%list
  (txt "<?xml version=""1.0"" encoding=""ISO-8859-1""?>
<MBusData>

    <SlaveInformation>
        <Id>8021382</Id>
        <Manufacturer>LSE</Manufacturer>
        <Version>153</Version>
        <ProductName>Siemens WFH21</ProductName>
        <Medium>Warm water (30-90" ++ [176] ++ txt "C)</Medium>
        <AccessNumber>235</AccessNumber>
        <Status>00</Status>
        <Signature>0000</Signature>
    </SlaveInformation>

    <DataRecord id=""0"">
        <Function>Instantaneous value</Function>
        <StorageNumber>0</StorageNumber>
        <Unit>m^3</Unit>
        <Quantity>Volume</Quantity>
        <Value>0.101000</Value>
    </DataRecord>

    <DataRecord id=""1"">
        <Function>Instantaneous value</Function>
        <StorageNumber>0</StorageNumber>
        <Unit>s</Unit>
        <Quantity>On time</Quantity>
        <Value>75427200.000000</Value>
    </DataRecord>

    <DataRecord id=""2"">
        <Function>Instantaneous value</Function>
        <StorageNumber>0</StorageNumber>
        <Unit>-</Unit>
        <Quantity>Time point (date &amp; time)</Quantity>
        <Value>2011-09-14T08:56:00Z</Value>
    </DataRecord>

    <DataRecord id=""3"">
        <Function>Value during error state</Function>
        <StorageNumber>0</StorageNumber>
        <Unit>-</Unit>
        <Quantity>Time point (date)</Quantity>
        <Value>2000-00-00</Value>
    </DataRecord>

    <DataRecord id=""4"">
        <Function>Instantaneous value</Function>
        <StorageNumber>0</StorageNumber>
        <Unit></Unit>
        <Quantity>Fabrication No</Quantity>
        <Value>8021382.000000</Value>
    </DataRecord>

    <DataRecord id=""5"">
        <Function>Instantaneous value</Function>
        <StorageNumber>0</StorageNumber>
        <Unit></Unit>
        <Quantity>Model / Version</Quantity>
        <Value>2173253517322.000000</Value>
    </DataRecord>

    <DataRecord id=""6"">
        <Function>Instantaneous value</Function>
        <StorageNumber>0</StorageNumber>
        <Unit></Unit>
        <Quantity>Parameter set identification</Quantity>
        <Value>WFH21</Value>
    </DataRecord>

    <DataRecord id=""7"">
        <Function>Instantaneous value</Function>
        <StorageNumber>0</StorageNumber>
        <Unit></Unit>
        <Quantity>Firmware version</Quantity>
        <Value>0.000000</Value>
    </DataRecord>

    <DataRecord id=""8"">
        <Function>Instantaneous value</Function>
        <StorageNumber>0</StorageNumber>
        <Unit>m^3/h</Unit>
        <Quantity>Volume flow</Quantity>
        <Value>0.000000</Value>
    </DataRecord>

    <DataRecord id=""9"">
        <Function>Manufacturer specific</Function>
        <StorageNumber>0</StorageNumber>
        <Unit></Unit>
        <Quantity></Quantity>
        <Value>37 FD 17 00 00 00 00 00 00 00 00 02 7A 0D 00 02 78 0D 00</Value>
    </DataRecord>

</MBusData>
")%list = (true, true).
Proof. vm_compute. reflexivity. Qed.

(** siemens_wfh21 *)
Example frame_67 : agrees
  (txt "68 5E 5E 68 08 05 72 91 64 00 08 65 32 99 06 DA 00 00 00 0C 13 00 00 00 00 0B 22 86 40 04 04 6D 24 0A 61 1C 32 6C 00 00 0C 78 91 64 00 08 06 FD 0C 0A 00 01 00 FA 01 0D FD 0B 05 31 32 48 46 57 01 FD 0E 00 4C 13 00 00 00 00 42 6C 5F 1C 0F 37 FD 17 00 00 00 00 00 00 00 00 02 7A 25 00 02 78 25 00 82 16
")%list
  (txt "<?xml version=""1.0"" encoding=""ISO-8859-1""?>
<MBusData>

    <SlaveInformation>
        <Id>8006491</Id>
        <Manufacturer>LSE</Manufacturer>
        <Version>153</Version>
        <ProductName>Siemens WFH21</ProductName>
        <Medium>Warm water (30-90" ++ [176] ++ txt "C)</Medium>
        <AccessNumber>218</AccessNumber>
        <Status>00</Status>
        <Signature>0000</Signature>
    </SlaveInformation>

    <DataRecord id=""0"">
        <Function>Instantaneous value</Function>
        <StorageNumber>0</StorageNumber>
        <Unit>m^3</Unit>
        <Quantity>Volume</Quantity>
        <Value>0.000000</Value>
    </DataRecord>

    <DataRecord id=""1"">
        <Function>Instantaneous value</Function>
        <StorageNumber>0</StorageNumber>
        <Unit>s</Unit>
        <Quantity>On time</Quantity>
        <Value>158709600.000000</Value>
    </DataRecord>

    <DataRecord id=""2"">
        <Function>Instantaneous value</Function>
        <StorageNumber>0</StorageNumber>
        <Unit>-</Unit>
        <Quantity>Time point (date &amp; time)</Quantity>
        <Value>2011-12-01T10:36:00Z</Value>
    </DataRecord>

    <DataRecord id=""3"">
        <Function>Value during error state</Function>
        <StorageNumber>0</StorageNumber>
        <Unit>-</Unit>
        <Quantity>Time point (date)</Quantity>
        <Value>2000-00-00</Value>
    </DataRecord>

    <DataRecord id=""4"">
        <Function>Instantaneous value</Function>
        <StorageNumber>0</StorageNumber>
        <Unit></Unit>
        <Quantity>Fabrication No</Quantity>
        <Value>8006491.000000</Value>
    </DataRecord>

    <DataRecord id=""5"">
        <Function>Instantaneous value</Function>
        <StorageNumber>0</StorageNumber>
        <Unit></Unit>
        <Quantity>Model / Version</Quantity>
        <Value>2173253517322.000000</Value>
    </DataRecord>

    <DataRecord id=""6"">
        <Function>Instantaneous value</Function>
        <StorageNumber>0</StorageNumber>
        <Unit></Unit>
        <Quantity>Parameter set identification</Quantity>
        <Value>WFH21</Value>
    </DataRecord>

    <DataRecord id=""7"">
        <Function>Instantaneous value</Function>
        <StorageNumber>0</StorageNumber>
        <Unit></Unit>
        <Quantity>Firmware version</Quantity>
        <Value>0.000000</Value>
    </DataRecord>

    <DataRecord id=""8"">
        <Function>Instantaneous value</Function>
        <StorageNumber>1</StorageNumber>
        <Unit>m^3</Unit>
        <Quantity>Volume</Quantity>
        <Value>0.000000</Value>
    </DataRecord>

    <DataRecord id=""9"">
        <Function>Instantaneous value</Function>
        <StorageNumber>1</StorageNumber>
        <Unit>-</Unit>
        <Quantity>Time point (date)</Quantity>
        <Value>2010-12-31</Value>
    </DataRecord>

    <DataRecord id=""10"">
        <Function>Manufacturer specific</Function>
        <StorageNumber>0</StorageNumber>
        <Unit></Unit>
        <Quantity></Quantity>
        <Value>37 FD 17 00 00 00 00 00 00 00 00 02 7A 25 00 02 78 25 00</Value>
    </DataRecord>

</MBusData>
")%list = (true, true).
Proof. vm_compute. reflexivity. Qed.

(** sontex_supercal_531_telegram1 *)
Example frame_68 : agrees
  (txt "68 51 51 68 08 01 72 24 06 42 08 EE 4D 0D 04 2C 30 00 00 04 0E 00 00 00 00 04 14 00 00 00 00 05 5B 00 00 00 00 05 5F 00 00 00 00 05 3E 00 00 00 00 05 2B 00 00 00 00 C4 00 0E 00 00 00 00 C4 00 14 00 00 00 00 C4 40 14 00 00 00 00 C4 80 40 14 00 00 00 00 1F 71 16")%list
  (txt "<?xml version=""1.0"" encoding=""ISO-8859-1""?>
<MBusData>

    <SlaveInformation>
        <Id>8420624</Id>
        <Manufacturer>SON</Manufacturer>
        <Version>13</Version>
        <ProductName>Sontex Supercal 531</ProductName>
        <Medium>Heat: Outlet</Medium>
        <AccessNumber>44</AccessNumber>
        <Status>30</Status>
        <Signature>0000</Signature>
    </SlaveInformation>

    <DataRecord id=""0"">
        <Function>Instantaneous value</Function>
        <StorageNumber>0</StorageNumber>
        <Unit>J</Unit>
        <Quantity>Energy</Quantity>
        <Value>0.000000</Value>
    </DataRecord>

    <DataRecord id=""1"">
        <Function>Instantaneous value</Function>
        <StorageNumber>0</StorageNumber>
        <Unit>m^3</Unit>
        <Quantity>Volume</Quantity>
        <Value>0.000000</Value>
    </DataRecord>

    <DataRecord id=""2"">
        <Function>Instantaneous value</Function>
        <StorageNumber>0</StorageNumber>
        <Unit>" ++ [176] ++ txt "C</Unit>
        <Quantity>Flow temperature</Quantity>
        <Value>0.000000</Value>
    </DataRecord>

    <DataRecord id=""3"">
        <Function>Instantaneous value</Function>
        <StorageNumber>0</StorageNumber>
        <Unit>" ++ [176] ++ txt "C</Unit>
        <Quantity>Return temperature</Quantity>
        <Value>0.000000</Value>
    </DataRecord>

    <DataRecord id=""4"">
        <Function>Instantaneous value</Function>
        <StorageNumber>0</StorageNumber>
        <Unit>m^3/h</Unit>
        <Quantity>Volume flow</Quantity>
        <Value>0.000000</Value>
    </DataRecord>

    <DataRecord id=""5"">
        <Function>Instantaneous value</Function>
        <StorageNumber>0</StorageNumber>
        <Unit>W</Unit>
        <Quantity>Power</Quantity>
        <Value>0.000000</Value>
    </DataRecord>

    <DataRecord id=""6"">
        <Function>Instantaneous value</Function>
        <StorageNumber>1</StorageNumber>
        <Tariff>0</Tariff>
        <Device>0</Device>
        <Unit>J</Unit>
        <Quantity>Energy</Quantity>
        <Value>0.000000</Value>
    </DataRecord>

    <DataRecord id=""7"">
        <Function>Instantaneous value</Function>
        <StorageNumber>1</StorageNumber>
        <Tariff>0</Tariff>
        <Device>0</Device>
        <Unit>m^3</Unit>
        <Quantity>Volume</Quantity>
        <Value>0.000000</Value>
    </DataRecord>

    <DataRecord id=""8"">
        <Function>Instantaneous value</Function>
        <StorageNumber>1</StorageNumber>
        <Tariff>0</Tariff>
        <Device>1</Device>
        <Unit>m^3</Unit>
        <Quantity>Volume</Quantity>
        <Value>0.000000</Value>
    </DataRecord>

    <DataRecord id=""9"">
        <Function>Instantaneous value</Function>
        <StorageNumber>1</StorageNumber>
        <Tariff>0</Tariff>
        <Device>2</Device>
        <Unit>m^3</Unit>
        <Quantity>Volume</Quantity>
        <Value>0.000000</Value>
    </DataRecord>

    <DataRecord id=""10"">
        <Function>More records follow</Function>
        <StorageNumber>0</StorageNumber>
        <Unit></Unit>
        <Quantity></Quantity>
        <Value></Value>
    </DataRecord>

</MBusData>
")%list = (true, true).
Proof. vm_compute. reflexivity. Qed.

(** svm_f22_telegram1 *)
Example frame_69 : agrees
  (txt "68 5C 5C 68 08 01 72 89 60 00 01 CD 4E 09 0C 94 70 00 00 04 06 6E 6D 00 00 04 13 45 C6 09 00 84 40 13 45 C6 09 00 02 5B F3 00 02 5F F3 00 02 62 00 00 04 22 E2 18 00 00 04 26 DB 18 00 00 04 3B 00 00 00 00 04 2C 00 00 00 00 04 6D 0C 15 A8 22 84 40 6E 00 00 00 00 84 80 40 6E 00 00 00 00 1F A7 16
")%list
  (txt "<?xml version=""1.0"" encoding=""ISO-8859-1""?>
<MBusData>

    <SlaveInformation>
        <Id>1006089</Id>
        <Manufacturer>SVM</Manufacturer>
        <Version>9</Version>
        <ProductName>Elster F4 / Kamstrup SVM F22</ProductName>
        <Medium>Heat: Inlet</Medium>
        <AccessNumber>148</AccessNumber>
        <Status>70</Status>
        <Signature>0000</Signature>
    </SlaveInformation>

    <DataRecord id=""0"">
        <Function>Instantaneous value</Function>
        <StorageNumber>0</StorageNumber>
        <Unit>Wh</Unit>
        <Quantity>Energy</Quantity>
        <Value>28014000.000000</Value>
    </DataRecord>

    <DataRecord id=""1"">
        <Function>Instantaneous value</Function>
        <StorageNumber>0</StorageNumber>
        <Unit>m^3</Unit>
        <Quantity>Volume</Quantity>
        <Value>640.581000</Value>
    </DataRecord>

    <DataRecord id=""2"">
        <Function>Instantaneous value</Function>
        <StorageNumber>0</StorageNumber>
        <Tariff>0</Tariff>
        <Device>1</Device>
        <Unit>m^3</Unit>
        <Quantity>Volume</Quantity>
        <Value>640.581000</Value>
    </DataRecord>

    <DataRecord id=""3"">
        <Function>Instantaneous value</Function>
        <StorageNumber>0</StorageNumber>
        <Unit>" ++ [176] ++ txt "C</Unit>
        <Quantity>Flow temperature</Quantity>
        <Value>243.000000</Value>
    </DataRecord>

    <DataRecord id=""4"">
        <Function>Instantaneous value</Function>
        <StorageNumber>0</StorageNumber>
        <Unit>" ++ [176] ++ txt "C</Unit>
        <Quantity>Return temperature</Quantity>
        <Value>243.000000</Value>
    </DataRecord>

    <DataRecord id=""5"">
        <Function>Instantaneous value</Function>
        <StorageNumber>0</StorageNumber>
        <Unit>K</Unit>
        <Quantity>Temperature difference</Quantity>
        <Value>0.000000</Value>
    </DataRecord>

    <DataRecord id=""6"">
        <Function>Instantaneous value</Function>
        <StorageNumber>0</StorageNumber>
        <Unit>s</Unit>
        <Quantity>On time</Quantity>
        <Value>22932000.000000</Value>
    </DataRecord>

    <DataRecord id=""7"">
        <Function>Instantaneous value</Function>
        <StorageNumber>0</StorageNumber>
        <Unit>s</Unit>
        <Quantity>Operating time</Quantity>
        <Value>22906800.000000</Value>
    </DataRecord>

    <DataRecord id=""8"">
        <Function>Instantaneous value</Function>
        <StorageNumber>0</StorageNumber>
        <Unit>m^3/h</Unit>
        <Quantity>Volume flow</Quantity>
        <Value>0.000000</Value>
    </DataRecord>

    <DataRecord id=""9"">
        <Function>Instantaneous value</Function>
        <StorageNumber>0</StorageNumber>
        <Unit>W</Unit>
        <Quantity>Power</Quantity>
        <Value>0.000000</Value>
    </DataRecord>

    <DataRecord id=""10"">
        <Function>Instantaneous value</Function>
        <StorageNumber>0</StorageNumber>
        <Unit>-</Unit>
        <Quantity>Time point (date &amp; time)</Quantity>
        <Value>2021-02-08T21:12:00Z</Value>
    </DataRecord>

    <DataRecord id=""11"">
        <Function>Instantaneous value</Function>
        <StorageNumber>0</StorageNumber>
        <Tariff>0</Tariff>
        <Device>1</Device>
        <Unit>Units for H.C.A.</Unit>
        <Quantity>H.C.A.</Quantity>
        <Value>0.000000</Value>
    </DataRecord>

    <DataRecord id=""12"">
        <Function>Instantaneous value</Function>
        <StorageNumber>0</StorageNumber>
        <Tariff>0</Tariff>
        <Device>2</Device>
        <Unit>Units for H.C.A.</Unit>
        <Quantity>H.C.A.</Quantity>
        <Value>0.000000</Value>
    </DataRecord>

    <DataRecord id=""13"">
        <Function>More records follow</Function>
        <StorageNumber>0</StorageNumber>
        <Unit></Unit>
        <Quantity></Quantity>
        <Value></Value>
    </DataRecord>

</MBusData>
")%list = (true, true).
Proof. vm_compute. reflexivity. Qed.

(** tch_telegramm1 *)
Example frame_70 : agrees
  (txt "68 3F 3F 68 08 4E 72 82 99 51 21 68 50 26 04 85 00 00 00 0C 05 00 00 00 00 04 6D 32 0D 1D 09 4C 05 00 00 00 00 42 6C 1D 05 0B 3A 00 00 00 0A 5A 34 02 0A 5E 24 02 0C 2A 00 00 00 00 0C 13 64 00 00 00 1F 09 16")%list
  (txt "<?xml version=""1.0"" encoding=""ISO-8859-1""?>
<MBusData>

    <SlaveInformation>
        <Id>21519982</Id>
        <Manufacturer>TCH</Manufacturer>
        <Version>38</Version>
        <ProductName>Techem m-bus S</ProductName>
        <Medium>Heat: Outlet</Medium>
        <AccessNumber>133</AccessNumber>
        <Status>00</Status>
        <Signature>0000</Signature>
    </SlaveInformation>

    <DataRecord id=""0"">
        <Function>Instantaneous value</Function>
        <StorageNumber>0</StorageNumber>
        <Unit>Wh</Unit>
        <Quantity>Energy</Quantity>
        <Value>0.000000</Value>
    </DataRecord>

    <DataRecord id=""1"">
        <Function>Instantaneous value</Function>
        <StorageNumber>0</StorageNumber>
        <Unit>-</Unit>
        <Quantity>Time point (date &amp; time)</Quantity>
        <Value>2000-09-29T13:50:00Z</Value>
    </DataRecord>

    <DataRecord id=""2"">
        <Function>Instantaneous value</Function>
        <StorageNumber>1</StorageNumber>
        <Unit>Wh</Unit>
        <Quantity>Energy</Quantity>
        <Value>0.000000</Value>
    </DataRecord>

    <DataRecord id=""3"">
        <Function>Instantaneous value</Function>
        <StorageNumber>1</StorageNumber>
        <Unit>-</Unit>
        <Quantity>Time point (date)</Quantity>
        <Value>2000-05-29</Value>
    </DataRecord>

    <DataRecord id=""4"">
        <Function>Instantaneous value</Function>
        <StorageNumber>0</StorageNumber>
        <Unit>m^3/h</Unit>
        <Quantity>Volume flow</Quantity>
        <Value>0.000000</Value>
    </DataRecord>

    <DataRecord id=""5"">
        <Function>Instantaneous value</Function>
        <StorageNumber>0</StorageNumber>
        <Unit>" ++ [176] ++ txt "C</Unit>
        <Quantity>Flow temperature</Quantity>
        <Value>23.400000</Value>
    </DataRecord>

    <DataRecord id=""6"">
        <Function>Instantaneous value</Function>
        <StorageNumber>0</StorageNumber>
        <Unit>" ++ [176] ++ txt "C</Unit>
        <Quantity>Return temperature</Quantity>
        <Value>22.400000</Value>
    </DataRecord>

    <DataRecord id=""7"">
        <Function>Instantaneous value</Function>
        <StorageNumber>0</StorageNumber>
        <Unit>W</Unit>
        <Quantity>Power</Quantity>
        <Value>0.000000</Value>
    </DataRecord>

    <DataRecord id=""8"">
        <Function>Instantaneous value</Function>
        <StorageNumber>0</StorageNumber>
        <Unit>m^3</Unit>
        <Quantity>Volume</Quantity>
        <Value>0.064000</Value>
    </DataRecord>

    <DataRecord id=""9"">
        <Function>More records follow</Function>
        <StorageNumber>0</StorageNumber>
        <Unit></Unit>
        <Quantity></Quantity>
        <Value></Value>
    </DataRecord>

</MBusData>
")%list = (true, true).
Proof. vm_compute. reflexivity. Qed.

(** tecson *)
Example frame_71 : agrees
  (txt "68 1B 1B 68 08 00 72 12 34 56 78 A3 50 10 01 01 00 00 00 01 67 09 0A 14 60 45 92 10 14 88 13 18 16
")%list
  (txt "<?xml version=""1.0"" encoding=""ISO-8859-1""?>
<MBusData>

    <SlaveInformation>
        <Id>78563412</Id>
        <Manufacturer>TEC</Manufacturer>
        <Version>16</Version>
        <ProductName></ProductName>
        <Medium>Oil</Medium>
        <AccessNumber>1</AccessNumber>
        <Status>00</Status>
        <Signature>0000</Signature>
    </SlaveInformation>

    <DataRecord id=""0"">
        <Function>Instantaneous value</Function>
        <StorageNumber>0</StorageNumber>
        <Unit>" ++ [176] ++ txt "C</Unit>
        <Quantity>External temperature</Quantity>
        <Value>9.000000</Value>
    </DataRecord>

    <DataRecord id=""1"">
        <Function>Instantaneous value</Function>
        <StorageNumber>0</StorageNumber>
        <Unit>m^3</Unit>
        <Quantity>Volume</Quantity>
        <Value>45.600000</Value>
    </DataRecord>

    <DataRecord id=""2"">
        <Function>Maximum value</Function>
        <StorageNumber>0</StorageNumber>
        <Tariff>1</Tariff>
        <Device>0</Device>
        <Unit>m^3</Unit>
        <Quantity>Volume</Quantity>
        <Value>50.000000</Value>
    </DataRecord>

</MBusData>
")%list = (true, true).
Proof. vm_compute. reflexivity. Qed.

(** wmbus-converted *)
Example frame_72 : agrees
  (txt "68 1f 1f 68 08 00 72 31 77 67 17 2d 2c 01 02 00 00 00 00 2f 2f 04 83 3b 88 13 00 00 2f 2f 2f 2f 2f 2f 2f 00 16
")%list
  (txt "<?xml version=""1.0"" encoding=""ISO-8859-1""?>
<MBusData>

    <SlaveInformation>
        <Id>17677731</Id>
        <Manufacturer>KAM</Manufacturer>
        <Version>1</Version>
        <ProductName>Kamstrup 382 (6850-005)</ProductName>
        <Medium>Electricity</Medium>
        <AccessNumber>0</AccessNumber>
        <Status>00</Status>
        <Signature>0000</Signature>
    </SlaveInformation>

    <DataRecord id=""0"">
        <Function>Instantaneous value</Function>
        <StorageNumber>0</StorageNumber>
        <Unit>Wh</Unit>
        <Quantity>Energy</Quantity>
        <Value>5000.000000</Value>
    </DataRecord>

</MBusData>
")%list = (true, true).
Proof. vm_compute. reflexivity. Qed.


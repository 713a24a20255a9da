(** Model of src/manufacturers.rs: the registry of manufacturers.  Generated from the match arms of
    [lookup_manufacturer]. *)
From Coq Require Import String.
From Verif Require Import Model.Base Model.Text.

(** src/manufacturers.rs:14-643, the arms of the match in source order: code, then name, website and description
    (the fields of [ManufacturerInfo], 2-6) *)
Definition registered : list (text * (text * text * text)) :=
  [(txt "ABB", (txt "ABB AB", txt "abb.com", txt "Power and automation technologies (Sweden)"));
   (txt "ACE", (txt "Actaris Electricity", txt "itron.com", txt "Electricity metering (acquired by Itron)"));
   (txt "ACG", (txt "Actaris Gas", txt "itron.com", txt "Gas metering (acquired by Itron)"));
   (txt "ACW", (txt "Actaris Water & Heat", txt "itron.com", txt "Water and heat metering (acquired by Itron)"));
   (txt "AEG", (txt "AEG", txt "aeg.com", txt "Electrical engineering (Germany)"));
   (txt "AEL", (txt "Kohler", [], txt "Metering solutions (Turkey)"));
   (txt "AEM", (txt "S.C. AEM S.A.", [], txt "Metering solutions (Romania)"));
   (txt "AMP", (txt "Ampy Automation Digilog Ltd", [], txt "Electricity metering (UK)"));
   (txt "AMT", (txt "Aquametro", txt "aquametro.com", txt "Water and heat metering (Switzerland)"));
   (txt "APS", (txt "Apsis Kontrol Sistemleri", txt "apsis.com.tr", txt "Control systems (Turkey)"));
   (txt "BEC", (txt "Berg Energiekontrollsysteme GmbH", txt "berg-energie.de", txt "Energy monitoring systems (Germany)"));
   (txt "BER", (txt "Bernina Electronic AG", [], txt "Electronic metering"));
   (txt "BSE", (txt "Basari Elektronik A.S.", txt "basari.com.tr", txt "Electronic metering (Turkey)"));
   (txt "BST", (txt "BESTAS Elektronik Optik", txt "bestas.com.tr", txt "Electronic metering (Turkey)"));
   (txt "CBI", (txt "Circuit Breaker Industries", txt "cbi.co.za", txt "Electrical metering (South Africa)"));
   (txt "CLO", (txt "Clorius Raab Karcher Energie Service A/S", [], txt "Heat metering"));
   (txt "CON", (txt "Conlog", [], txt "Prepayment metering solutions"));
   (txt "CZM", (txt "Cazzaniga S.p.A.", [], txt "Water metering (Italy)"));
   (txt "DAN", (txt "Danubia", [], txt "Metering solutions"));
   (txt "DFS", (txt "Danfoss A/S", txt "danfoss.com", txt "Energy and climate solutions (Denmark)"));
   (txt "DME", (txt "Diehl Metering", txt "diehl-metering.com", txt "Water and heat metering (Germany)"));
   (txt "DWZ", (txt "Lorenz GmbH & Co. KG", txt "lorenz-meters.de", txt "Flow measurement (Germany)"));
   (txt "DZG", ((txt "Deutsche Z" ++ [228] ++ txt "hlergesellschaft"), txt "dzg.de", txt "Electricity metering (Germany)"));
   (txt "EDM", (txt "EDMI Pty. Ltd.", txt "edmi-meters.com", txt "Smart metering solutions (Australia)"));
   (txt "EFE", (txt "Engelmann Sensor GmbH", txt "engelmann.de", txt "Heat and cooling energy meters (Germany)"));
   (txt "EKT", (txt "PA KVANT J.S.", [], txt "Metering solutions (Russia)"));
   (txt "ELM", (txt "Elektromed Elektronik Ltd", txt "elektromed.com.tr", txt "Electronic metering (Turkey)"));
   (txt "ELS", (txt "Elster Group", txt "elster.com", txt "Gas, electricity and water metering"));
   (txt "ELV", (txt "Elvaco AB", txt "elvaco.com", txt "Wireless M-Bus communication modules (Sweden)"));
   (txt "EMH", (txt "EMH metering", txt "emh-metering.com", txt "Smart electricity meters (Germany)"));
   (txt "EMO", (txt "Enermet", txt "enermet.de", txt "Energy metering (Germany)"));
   (txt "EMU", (txt "EMU Elektronik AG", txt "emuag.ch", txt "Energy measurement (Switzerland)"));
   (txt "END", (txt "ENDYS GmbH", txt "endys.de", txt "Metering systems (Germany)"));
   (txt "ENP", (txt "Kiev Polytechnical Scientific Research", [], txt "Metering R&D (Ukraine)"));
   (txt "ENT", (txt "ENTES Elektronik", txt "entes.com.tr", txt "Energy measurement (Turkey)"));
   (txt "ERL", (txt "Erelsan Elektrik ve Elektronik", [], txt "Electrical metering (Turkey)"));
   (txt "ESM", (txt "Starion Elektrik ve Elektronik", [], txt "Electrical metering (Turkey)"));
   (txt "ESY", (txt "Easymeter", txt "easymeter.com", txt "Electricity metering (Germany)"));
   (txt "EUR", (txt "Eurometers Ltd", [], txt "Utility metering"));
   (txt "EWT", (txt "Elin Wasserwerkstechnik", [], txt "Water metering"));
   (txt "FED", (txt "Federal Elektrik", txt "federal.com.tr", txt "Electrical equipment (Turkey)"));
   (txt "FML", (txt "Siemens Measurements Ltd.", txt "siemens.com", txt "Metering (Siemens subsidiary)"));
   (txt "GAV", (txt "Carlo Gavazzi", txt "gavazzi.com", txt "Energy monitoring and automation (Switzerland)"));
   (txt "GBJ", (txt "Grundfos A/S", txt "grundfos.com", txt "Pump and flow solutions (Denmark)"));
   (txt "GEC", (txt "GEC Meters Ltd.", [], txt "Electricity metering (UK)"));
   (txt "GMC", (txt "GMC-I Gossen-Metrawatt", txt "gossenmetrawatt.com", txt "Measurement and energy technology (Germany)"));
   (txt "GSP", (txt "Ingenieurbuero Gasperowicz", txt "m-bus.de", txt "M-Bus engineering (Germany)"));
   (txt "GTE", (txt "Sensoco", [], txt "Metering solutions"));
   (txt "GWF", (txt "GWF MessSysteme AG", txt "gwf.ch", txt "Gas and water measurement (Switzerland)"));
   (txt "HEG", (txt "Hamburger Elektronik Gesellschaft", [], txt "Electronic metering (Germany)"));
   (txt "HEL", (txt "Heliowatt", [], txt "Electricity metering"));
   (txt "HRZ", (txt "HERZ Messtechnik GmbH", txt "herz-messtechnik.de", txt "Flow measurement (Germany)"));
   (txt "HTC", (txt "Horstmann Timers and Controls Ltd.", [], txt "Timing and control (UK)"));
   (txt "HYD", (txt "Hydrometer GmbH", txt "hydrometer.de", txt "Water metering (Germany)"));
   (txt "ICM", (txt "Intracom", txt "intracom.gr", txt "Telecommunications and metering (Greece)"));
   (txt "IDE", (txt "IMIT S.p.A.", txt "imit.it", txt "Control and measurement (Italy)"));
   (txt "INV", (txt "Invensys Metering Systems AG", [], txt "Metering solutions"));
   (txt "ISK", (txt "Iskraemeco", txt "iskraemeco.com", txt "Electricity and smart metering (Slovenia)"));
   (txt "IST", (txt "ista SE", txt "ista.com", txt "Energy and water services (Germany)"));
   (txt "ITR", (txt "Itron", txt "itron.com", txt "Smart metering and grid solutions (USA)"));
   (txt "ITW", (txt "ista SE", txt "ista.com", txt "Energy services and submetering (Germany)"));
   (txt "IWK", (txt "IWK Regler und Kompensatoren GmbH", [], txt "Control and compensation (Germany)"));
   (txt "JAN", (txt "Janitza Electronics GmbH", txt "janitza.de", txt "Power quality and energy measurement (Germany)"));
   (txt "KAM", (txt "Kamstrup A/S", txt "kamstrup.com", txt "Energy and water metering (Denmark)"));
   (txt "KHL", (txt "Kohler", [], txt "Metering solutions (Turkey)"));
   (txt "KKE", (txt "KK-Electronic A/S", [], txt "Electronic metering (Denmark)"));
   (txt "KNX", (txt "KNX Association", txt "knx.org", txt "Building automation standard (Belgium)"));
   (txt "KRO", ((txt "Elster Kromschr" ++ [246] ++ txt "der"), txt "elster.com", txt "Gas metering and combustion (Germany)"));
   (txt "KST", (txt "Kundo SystemTechnik GmbH", txt "kundo.de", txt "Heat cost allocators (Germany)"));
   (txt "LEM", (txt "LEM HEME Ltd.", txt "lem.com", txt "Current and voltage transducers (UK)"));
   (txt "LGB", (txt "Landis+Gyr UK", txt "landisgyr.com", txt "Energy management solutions (UK)"));
   (txt "LGD", (txt "Landis+Gyr Germany", txt "landisgyr.com", txt "Energy management solutions (Germany)"));
   (txt "LGZ", (txt "Landis+Gyr AG Zug", txt "landisgyr.com", txt "Energy management solutions (Switzerland)"));
   (txt "LHA", (txt "Atlantic Meters", txt "atlantic-meters.com", txt "Metering solutions (South Africa)"));
   (txt "LML", (txt "LUMEL S.A.", txt "lumel.com.pl", txt "Measurement and control (Poland)"));
   (txt "LSE", (txt "Landis & Staefa Electronic", txt "siemens.com", txt "Building technologies and metering (Siemens)"));
   (txt "LSP", (txt "Landis & Staefa Production", txt "siemens.com", txt "Building technologies and metering (Siemens)"));
   (txt "LSZ", (txt "Siemens Building Technologies", txt "siemens.com", txt "Building automation and metering (Germany)"));
   (txt "LUG", (txt "Landis+Gyr", txt "landisgyr.com", txt "Global energy management solutions"));
   (txt "MAD", (txt "Maddalena S.r.l.", txt "maddalena.it", txt "Water metering (Italy)"));
   (txt "MEI", (txt "H. Meinecke AG", [], txt "Water metering (now Invensys)"));
   (txt "MKS", (txt "MAK-SAY Elektrik Elektronik", [], txt "Electrical metering (Turkey)"));
   (txt "MNS", (txt "MANAS Elektronik", txt "manas.com.tr", txt "Electronic metering (Turkey)"));
   (txt "MPS", (txt "Multiprocessor Systems Ltd", txt "mps.bg", txt "Metering systems (Bulgaria)"));
   (txt "MTC", (txt "Metering Technology Corporation", [], txt "Metering solutions (USA)"));
   (txt "NIS", (txt "Nisko Industries", [], txt "Metering solutions (Israel)"));
   (txt "NMS", (txt "Nisko Advanced Metering Solutions", [], txt "Advanced metering (Israel)"));
   (txt "NRM", (txt "Norm Elektronik", [], txt "Electronic metering (Turkey)"));
   (txt "NZR", (txt "NZR GmbH", txt "nzr.de", txt "Energy metering systems (Germany)"));
   (txt "ONR", (txt "ONUR Elektroteknik", [], txt "Electrical metering (Turkey)"));
   (txt "PAD", (txt "PadMess GmbH", txt "padmess.de", txt "M-Bus data acquisition (Germany)"));
   (txt "PMG", (txt "Spanner-Pollux GmbH", [], txt "Metering solutions (now Invensys)"));
   (txt "PRI", (txt "Polymeters Response International Ltd.", [], txt "Utility metering (UK)"));
   (txt "RAM", ((txt "Rossweiner Armaturen und Messger" ++ [228] ++ txt "te"), [], txt "Metering instruments (Germany)"));
   (txt "RAS", (txt "Hydrometer GmbH", txt "hydrometer.de", txt "Water metering (Germany)"));
   (txt "REL", (txt "Relay GmbH", txt "relay.de", txt "Remote reading and M-Bus (Germany)"));
   (txt "RKE", (txt "ista SE", txt "ista.com", txt "Energy services and submetering (Germany)"));
   (txt "SAP", (txt "Sappel", txt "sappel.com", txt "Water metering (France)"));
   (txt "SBC", (txt "Saia-Burgess Controls", txt "saia-pcd.com", txt "Building automation controllers (Switzerland)"));
   (txt "SCH", (txt "Schnitzel GmbH", [], txt "Metering solutions (Germany)"));
   (txt "SEN", (txt "Sensus", txt "sensus.com", txt "Water and gas metering"));
   (txt "SEO", (txt "Sensoco", [], txt "Metering solutions"));
   (txt "SIE", (txt "Siemens AG", txt "siemens.com", txt "Electrification, automation and digitalization (Germany)"));
   (txt "SLB", (txt "Schlumberger Industries", txt "slb.com", txt "Energy and water metering"));
   (txt "SME", (txt "Siame", [], txt "Metering solutions (Tunisia)"));
   (txt "SML", (txt "Siemens Measurements Ltd.", txt "siemens.com", txt "Metering (Siemens subsidiary, UK)"));
   (txt "SOF", (txt "softflow.de GmbH", txt "softflow.de", txt "M-Bus software and metering (Germany)"));
   (txt "SON", (txt "Sontex SA", txt "sontex.ch", txt "Heat and water metering (Switzerland)"));
   (txt "SPL", (txt "Sappel", txt "sappel.com", txt "Water metering (France)"));
   (txt "SPX", (txt "Spanner & Pluss", txt "spanner-pluss.de", txt "Gas metering (Germany)"));
   (txt "SVM", ((txt "AB Svensk V" ++ [228] ++ txt "rmem" ++ [228] ++ txt "tning SVM"), [], txt "Heat metering (Sweden)"));
   (txt "TCH", (txt "Techem", txt "techem.com", txt "Heat cost allocators and submetering (Germany)"));
   (txt "TIP", ((txt "TIP Th" ++ [252] ++ txt "ringer Industrie Produkte GmbH"), txt "stromzaehler.de", txt "Electricity metering (Germany)"));
   (txt "UAG", (txt "Uher", [], txt "Metering solutions"));
   (txt "UGI", (txt "United Gas Industries", [], txt "Gas metering"));
   (txt "VES", (txt "ista SE", txt "ista.com", txt "Energy services and submetering (Germany)"));
   (txt "VPI", (txt "Van Putten Instruments B.V.", [], txt "Measurement instruments (Netherlands)"));
   (txt "WEP", (txt "Wepsta", [], txt "Heat metering"));
   (txt "WMO", (txt "Westermo Teleindustri AB", txt "westermo.se", txt "Industrial data communications (Sweden)"));
   (txt "WZG", (txt "Modularis", [], txt "Metering solutions"));
   (txt "YTE", (txt "Yuksek Teknoloji", [], txt "High technology metering (Turkey)"));
   (txt "ZAG", (txt "Zellwerg Uster AG", [], txt "Metering solutions (Switzerland)"));
   (txt "ZAP", (txt "Zaptronix", [], txt "Metering solutions"));
   (txt "ZIV", (txt "ZIV Aplicaciones y Tecnologia S.A.", txt "ziv.es", txt "Smart grid and metering (Spain)"));
   (txt "ZRI", (txt "ZENNER International GmbH & Co. KG", txt "zenner.com", txt "Water, heat and gas metering (Germany)"));
   (txt "ZRM", (txt "Minol Messtechnik", txt "minol.de", txt "Heat cost allocators and submetering (Germany)"))].

(** src/manufacturers.rs:12-646, [lookup_manufacturer]: the first arm whose pattern is the code *)
Definition lookup_manufacturer (code : text) : option (text * text * text) :=
  match find (fun entry => text_eqb code (fst entry)) registered with
  | Some (_, info) => Some info
  | None => None
  end.

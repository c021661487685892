(** Generated by tools/gen_database.py from /repo/database/devices.go: the
    cases of the switch in [New] (lines 31 ff.), in order, each with the
    device its constructor function returns (without Parameters, which no
    code reads). *)
From Verif Require Import ModelBase ModelNodes.
(** devices.go:19-30 *)
Record device : Type := mkDevice {
  d_brand : string; d_product : string; d_description : string;
  d_manufacturer : string; d_type : string; d_id : string;
  d_classes : list cclass }.
Local Open Scope string_scope.
Definition dev0 := ("0081_00a0_0001", mkDevice "SIEGENIA-AUBI KG" "Sensoair" "Air quality sensor for indoor use" "0081" "00A0" "0001" [mkCC x00 false false true "1"; mkCC x20 false false true "1"; mkCC x31 true false true "3"; mkCC x70 true false true "1"; mkCC x72 true false true "1"; mkCC x73 true false true "0"; mkCC x85 true false true "1"; mkCC x86 true false true "1"; mkCC x9e true false true "1"]).
Definition dev1 := ("0068_0000_0010", mkDevice "Good Way Technology Co., Ltd" "TD1311" "In wall Power Monitor Switch" "0068" "0000" "0010" [mkCC x00 false false true "1"; mkCC x20 false false true "1"; mkCC x25 false false true "0"; mkCC x27 false false true "1"; mkCC x60 false false true "2"; mkCC x70 false false true "1"; mkCC x72 false false true "1"; mkCC x7a false false true "1"; mkCC x86 false false true "1"]).
Definition dev2 := ("010a_1100_4b00", mkDevice "VDA" "Vitrum III EU Dimmer" "" "010A" "1100" "4B00" [mkCC x00 false false true "1"; mkCC x20 false false true "1"; mkCC x26 true false true "1"; mkCC x27 true false true "1"; mkCC x60 true false true "2"; mkCC x72 true false true "1"; mkCC x77 true false true "1"; mkCC x85 true false true "1"; mkCC x86 true false true "1"; mkCC x87 true false true "1"; mkCC x8e true false true "1"; mkCC x91 true false true "0"]).
Definition dev3 := ("0001_4450_3030", mkDevice "ACT - Advanced Control Technologies" "45602" "Lamp Module with Dimmer Control" "0001" "4450" "3030" [mkCC x00 false false true "1"; mkCC x20 false false true "1"; mkCC x26 true false true "1"; mkCC x27 true false true "1"; mkCC x70 true false true "1"; mkCC x72 true false true "1"; mkCC x73 true false true "1"; mkCC x75 true false true "1"; mkCC x86 true false true "1"]).
Definition dev4 := ("0001_444d_3330", mkDevice "ACT - Advanced Control Technologies" "ZDM230" "HomePro Wall Dimmer ZDM230" "0001" "444D" "3330" [mkCC x20 true false true "1"; mkCC x26 true false true "1"; mkCC x27 true false true "1"; mkCC x70 true false true "1"; mkCC x72 true false true "1"; mkCC x73 true false true "1"; mkCC x85 true false true "1"; mkCC x86 true false true "1"]).
Definition dev5 := ("0001_4457_3033", mkDevice "ACT - Advanced Control Technologies" "ZDW103" "Wall Mounted 3-Way Dimmer Receiver" "0001" "4457" "3033" [mkCC x00 false false true "1"; mkCC x20 false false true "1"; mkCC x26 true false true "1"; mkCC x27 true false true "1"; mkCC x70 true false true "1"; mkCC x72 true false true "1"; mkCC x73 true false true "1"; mkCC x85 true false true "1"; mkCC x86 true false true "1"]).
Definition dev6 := ("0001_4457_3230", mkDevice "ACT - Advanced Control Technologies" "ZDW120" "Two Wire Wall Dimer" "0001" "4457" "3230" [mkCC x00 false false true "1"; mkCC x20 false false true "1"; mkCC x26 true false true "1"; mkCC x27 true false true "1"; mkCC x70 true false true "1"; mkCC x72 true false true "1"; mkCC x73 true false true "1"; mkCC x85 true false true "1"; mkCC x86 true false true "1"]).
Definition dev7 := ("0001_4952_3130", mkDevice "ACT - Advanced Control Technologies" "ZIR010" "PIR Motion Sensor" "0001" "4952" "3130" [mkCC x00 false false true "1"; mkCC x20 false false true "1"; mkCC x30 true false true "1"; mkCC x70 true false true "1"; mkCC x71 true false true "1"; mkCC x72 true false true "1"; mkCC x80 true false true "1"; mkCC x84 true false true "1"; mkCC x85 true false true "1"; mkCC x86 true false true "1"]).
Definition dev8 := ("0001_524d_3330", mkDevice "ACT - Advanced Control Technologies" "ZRM230" "Wall Switch/Transmitter (2-gang)" "0001" "524D" "3330" [mkCC x00 false false true "1"; mkCC x20 false false true "1"; mkCC x25 false false true "1"; mkCC x26 false false true "0"; mkCC x70 false false true "1"; mkCC x72 false false true "1"; mkCC x85 false false true "1"; mkCC x86 false false true "1"]).
Definition dev9 := ("0001_7fff_7fff", mkDevice "ACT - Advanced Control Technologies" "ZRP200" "HomePro Applicance Module ZRP200" "0001" "7FFF" "7FFF" [mkCC x00 false false true "1"; mkCC x20 false false true "1"; mkCC x25 true false true "1"; mkCC x27 true false true "1"; mkCC x75 true false true "1"]).
Definition dev10 := ("0001_5257_3330", mkDevice "ACT - Advanced Control Technologies" "ZRW230" "Wall Mounted 3-Way Switch" "0001" "5257" "3330" [mkCC x00 false false true "1"; mkCC x20 false false true "1"; mkCC x25 true false true "1"; mkCC x27 true false true "1"; mkCC x70 true false true "1"; mkCC x72 true false true "1"; mkCC x73 true false true "1"; mkCC x85 true false true "1"; mkCC x86 true false true "1"]).
Definition dev11 := ("0001_544d_3330", mkDevice "ACT - Advanced Control Technologies" "ZTM230" "Dual paddle wall mounted transmitter" "0001" "544D" "3330" [mkCC x00 false false true "1"; mkCC x20 false false true "1"; mkCC x25 false false true "1"; mkCC x26 false false true "1"; mkCC x27 false false true "1"; mkCC x70 false false true "1"; mkCC x72 false false true "1"; mkCC x85 false false true "1"; mkCC x86 false false true "1"; mkCC x87 false false true "1"]).
Definition dev12 := ("0086_0002_0078", mkDevice "AEON Labs" "ZW120" "Door/Window sensor Gen5" "0086" "0002" "0078" [mkCC x00 false false true "1"; mkCC x20 false false true "1"; mkCC x30 false false true "1"; mkCC x70 false false true "1"; mkCC x71 false false true "1"; mkCC x72 false false true "1"; mkCC x80 false false true "1"; mkCC x84 false false true "2"; mkCC x85 false false true "1"; mkCC x86 false false true "1"]).
Definition dev13 := ("0086_0102_0078", mkDevice "AEON Labs" "ZW120" "Door/Window sensor Gen5" "0086" "0102" "0078" [mkCC x00 false false true "1"; mkCC x20 false false true "1"; mkCC x30 false false true "1"; mkCC x70 false false true "1"; mkCC x71 false false true "1"; mkCC x72 false false true "1"; mkCC x80 false false true "1"; mkCC x84 false false true "2"; mkCC x85 false false true "1"; mkCC x86 false false true "1"]).
Definition dev14 := ("0086_0001_0003", mkDevice "AEON Labs" "DSA03202" "Minimote 4 button remote control" "0086" "0001" "0003" [mkCC x00 false false true "1"; mkCC x20 false false true "1"; mkCC x2b false false true "1"; mkCC x70 false false true "1"; mkCC x72 false false true "1"; mkCC x84 false false true "1"; mkCC x86 false false true "1"]).
Definition dev15 := ("0086_0006_0002", mkDevice "AEON Labs" "DSA03202" "Minimote 4 button remote control" "0086" "0006" "0002" [mkCC x00 false false true "1"; mkCC x20 false false true "1"; mkCC x2b false false true "1"; mkCC x70 false false true "1"; mkCC x72 false false true "1"; mkCC x84 false false true "1"; mkCC x86 false false true "1"]).
Definition dev16 := ("0086_0001_0026", mkDevice "AEON Labs" "DSA38" "Panic Button Key Fob" "0086" "0001" "0026" [mkCC x00 false false true "1"; mkCC x20 false false true "1"; mkCC x2b false false true "1"; mkCC x70 true false true "1"; mkCC x72 true false true "1"; mkCC x80 true false true "1"; mkCC x84 true false true "2"; mkCC x85 true false true "1"; mkCC x86 true false true "1"]).
Definition dev17 := ("0086_0002_0005", mkDevice "AEON Labs" "DSB05" "4 in One MultiSensor" "0086" "0002" "0005" [mkCC x00 false false true "1"; mkCC x20 false false true "1"; mkCC x30 false false true "1"; mkCC x31 false false true "5"; mkCC x70 false false true "1"; mkCC x72 false false true "1"; mkCC x80 false false true "1"; mkCC x84 false false true "2"; mkCC x85 false false true "1"; mkCC x86 false false true "1"]).
Definition dev18 := ("0086_0002_0009", mkDevice "AEON Labs" "DSB09" "Home Energy Meter" "0086" "0002" "0009" [mkCC x00 false false true "1"; mkCC x20 false false true "1"; mkCC x31 true false true "2"; mkCC x32 true false true "2"; mkCC x60 true false true "2"; mkCC x70 true false true "1"; mkCC x72 true false true "1"; mkCC x80 true false true "1"; mkCC x85 true false true "1"; mkCC x86 true false true "1"]).
Definition dev19 := ("0086_0002_001c", mkDevice "AEON Labs" "DSB28" "Home Energy Meter G2" "0086" "0002" "001C" [mkCC x00 false false true "1"; mkCC x20 false false true "1"; mkCC x32 false false true "3"; mkCC x56 false false true "1"; mkCC x60 false false true "2"; mkCC x70 false false true "1"; mkCC x72 false false true "1"; mkCC x85 false false true "1"; mkCC x86 false false true "1"]).
Definition dev20 := ("0086_0002_0004", mkDevice "AEON Labs" "DSB29" "Door/Window sensor Gen2" "0086" "0002" "0004" [mkCC x00 false false true "1"; mkCC x20 false false true "1"; mkCC x30 false false true "1"; mkCC x70 false false true "1"; mkCC x71 false false true "1"; mkCC x72 false false true "1"; mkCC x80 false false true "1"; mkCC x84 false false true "2"; mkCC x85 false false true "1"; mkCC x86 false false true "1"]).
Definition dev21 := ("0086_0002_001d", mkDevice "AEON Labs" "DSB29" "Door/Window sensor Gen2" "0086" "0002" "001D" [mkCC x00 false false true "1"; mkCC x20 false false true "1"; mkCC x30 false false true "1"; mkCC x70 false false true "1"; mkCC x71 false false true "1"; mkCC x72 false false true "1"; mkCC x80 false false true "1"; mkCC x84 false false true "2"; mkCC x85 false false true "1"; mkCC x86 false false true "1"]).
Definition dev22 := ("0086_0002_002d", mkDevice "AEON Labs" "DSB45" "Water Sensor" "0086" "0002" "002D" [mkCC x00 false false true "1"; mkCC x20 false false true "1"; mkCC x30 false false true "1"; mkCC x70 false false true "1"; mkCC x71 false false true "1"; mkCC x72 false false true "1"; mkCC x80 false false true "1"; mkCC x84 false false true "2"; mkCC x85 false false true "1"; mkCC x86 false false true "1"]).
Definition dev23 := ("0086_0002_0036", mkDevice "AEON Labs" "DSB54" "Recessed Door/Window Sensor" "0086" "0002" "0036" [mkCC x00 false false true "1"; mkCC x20 false false true "1"; mkCC x30 true false true "1"; mkCC x70 true false true "1"; mkCC x72 true false true "1"; mkCC x80 true false true "1"; mkCC x84 true false true "2"; mkCC x85 true false true "1"; mkCC x86 true false true "1"]).
Definition dev24 := ("0086_0003_0006", mkDevice "AEON Labs" "DSC06" "Smart Energy Switch" "0086" "0003" "0006" [mkCC x00 false false true "1"; mkCC x20 false false true "1"; mkCC x25 false false true "1"; mkCC x27 false false true "1"; mkCC x31 false false true "3"; mkCC x32 false false true "2"; mkCC x70 false false true "1"; mkCC x72 false false true "1"; mkCC x85 false false true "1"; mkCC x86 false false true "1"]).
Definition dev25 := ("0086_0003_0008", mkDevice "AEON Labs" "DSC08" "Smart Energy Illuminator" "0086" "0003" "0008" [mkCC x00 false false true "1"; mkCC x20 false false true "1"; mkCC x26 false false true "1"; mkCC x27 false false true "0"; mkCC x31 false false true "3"; mkCC x32 false false true "2"; mkCC x70 false false true "1"; mkCC x72 false false true "1"; mkCC x85 false false true "1"; mkCC x86 false false true "1"]).
Definition dev26 := ("0086_0003_000a", mkDevice "AEON Labs" "DSC10" "Heavy Duty Smart Switch" "0086" "0003" "000A" [mkCC x20 false false false "1"; mkCC x25 true false true "1"; mkCC x27 true false true "1"; mkCC x2b true false true "1"; mkCC x2c true false true "1"; mkCC x31 true false true "5"; mkCC x32 true false true "3"; mkCC x70 true false true "1"; mkCC x72 true false true "2"; mkCC x82 true false true "1"; mkCC x85 true false true "1"; mkCC x86 true false true "1"]).
Definition dev27 := ("0086_0003_000b", mkDevice "AEON Labs" "DSC11" "Smart Strip" "0086" "0003" "000B" [mkCC x00 false false true "1"; mkCC x20 false false true "1"; mkCC x25 false false true "1"; mkCC x27 false false true "1"; mkCC x32 false false true "2"; mkCC x60 false false true "2"; mkCC x70 false false true "1"; mkCC x72 false false true "1"; mkCC x85 false false true "1"; mkCC x86 false false true "1"]).
Definition dev28 := ("0086_0003_000c", mkDevice "AEON Labs" "DSC12" "Micro Smart Energy Switch" "0086" "0003" "000C" [mkCC x00 false false true "1"; mkCC x20 false false true "1"; mkCC x25 true false true "1"; mkCC x27 true false true "1"; mkCC x31 true false true "3"; mkCC x32 true false true "2"; mkCC x70 true false true "1"; mkCC x72 true false true "1"; mkCC x85 true false true "1"; mkCC x86 true false true "1"]).
Definition dev29 := ("0086_0003_000d", mkDevice "AEON Labs" "DSC13" "Micro Smart Energy Illuminator" "0086" "0003" "000D" [mkCC x00 false false true "1"; mkCC x20 false false true "0"; mkCC x26 false false true "1"; mkCC x27 false false true "1"; mkCC x31 false false true "3"; mkCC x32 false false true "2"; mkCC x70 false false true "1"; mkCC x72 false false true "1"; mkCC x85 false false true "1"; mkCC x86 false false true "1"]).
Definition dev30 := ("0086_0003_000e", mkDevice "AEON Labs" "DSC14" "Micro Motor Controller" "0086" "0003" "000E" [mkCC x00 false false true "1"; mkCC x20 false false true "1"; mkCC x25 true false true "1"; mkCC x26 true false true "3"; mkCC x70 true false true "1"; mkCC x72 true false true "1"; mkCC x85 true false true "1"; mkCC x86 true false true "1"]).
Definition dev31 := ("0086_0003_0011", mkDevice "AEON Labs" "DSC17" "Micro Double Smart Switch" "0086" "0003" "0011" [mkCC x00 false false true "1"; mkCC x20 false false true "1"; mkCC x25 true false true "1"; mkCC x27 true false true "1"; mkCC x31 true false true "3"; mkCC x32 true false true "2"; mkCC x60 true false true "2"; mkCC x70 true false true "1"; mkCC x72 true false true "1"; mkCC x85 true false true "1"; mkCC x86 true false true "1"]).
Definition dev32 := ("0086_0003_0012", mkDevice "AEON Labs" "DSC18" "Micro Smart Energy Switch G2" "0086" "0003" "0012" [mkCC x00 false false true "1"; mkCC x20 false false true "1"; mkCC x25 true false true "1"; mkCC x27 true false true "1"; mkCC x2b true false true "1"; mkCC x2c true false true "0"; mkCC x32 true false true "3"; mkCC x56 true false true "1"; mkCC x70 true false true "1"; mkCC x72 true false true "1"; mkCC x85 true false true "1"; mkCC x86 true false true "1"]).
Definition dev33 := ("0086_0003_0013", mkDevice "AEON Labs" "DSC19" "Micro Smart Energy Illuminator G2" "0086" "0003" "0013" [mkCC x00 false false true "1"; mkCC x20 false false true "1"; mkCC x26 true false true "2"; mkCC x27 true false true "1"; mkCC x2b true false true "1"; mkCC x2c true false true "0"; mkCC x32 true false true "3"; mkCC x70 true false true "1"; mkCC x72 true false true "1"; mkCC x85 true false true "1"; mkCC x86 true false true "1"]).
Definition dev34 := ("0086_0003_0018", mkDevice "AEON Labs" "DSC24" "Smart Energy Switch G2" "0086" "0003" "0018" [mkCC x00 false false true "1"; mkCC x20 false false true "1"; mkCC x25 true false true "1"; mkCC x27 true false true "1"; mkCC x2b true false true "1"; mkCC x2c true false true "0"; mkCC x32 true false true "3"; mkCC x56 true false true "1"; mkCC x70 true false true "1"; mkCC x72 true false true "1"; mkCC x85 true false true "1"; mkCC x86 true false true "1"]).
Definition dev35 := ("0086_0103_004b", mkDevice "AEON Labs" "DSC24" "Smart Energy Switch G2" "0086" "0103" "004B" [mkCC x00 false false true "1"; mkCC x20 false false true "1"; mkCC x25 true false true "1"; mkCC x27 true false true "1"; mkCC x2b true false true "1"; mkCC x2c true false true "0"; mkCC x32 true false true "3"; mkCC x56 true false true "1"; mkCC x70 true false true "1"; mkCC x72 true false true "1"; mkCC x85 true false true "1"; mkCC x86 true false true "1"]).
Definition dev36 := ("0086_0003_0019", mkDevice "AEON Labs" "DSC25" "Smart Energy Illuminator G2" "0086" "0003" "0019" [mkCC x20 true false true "0"; mkCC x26 true false true "0"; mkCC x27 true false true "0"; mkCC x2b true false true "0"; mkCC x2c true false true "0"; mkCC x32 true false true "0"; mkCC x70 true false true "0"; mkCC x72 true false true "0"; mkCC x82 true false true "0"; mkCC x85 true false true "0"; mkCC x86 true false true "0"]).
Definition dev37 := ("0086_0003_001a", mkDevice "AEON Labs" "DSC26" "Micro Switch G2" "0086" "0003" "001A" [mkCC x00 false false true "1"; mkCC x20 false false true "1"; mkCC x25 true false true "1"; mkCC x27 true false true "1"; mkCC x2b true false true "1"; mkCC x2c true false true "0"; mkCC x56 true false true "1"; mkCC x70 true false true "1"; mkCC x72 true false true "1"; mkCC x85 true false true "1"; mkCC x86 true false true "1"]).
Definition dev38 := ("0086_0003_001b", mkDevice "AEON Labs" "DSC27" "Micro Illuminator G2" "0086" "0003" "001B" [mkCC x00 false false true "1"; mkCC x20 false false true "1"; mkCC x26 true false true "2"; mkCC x27 true false true "1"; mkCC x2b true false true "1"; mkCC x2c true false true "0"; mkCC x70 true false true "1"; mkCC x72 true false true "1"; mkCC x85 true false true "1"; mkCC x86 true false true "1"]).
Definition dev39 := ("0086_0003_0023", mkDevice "AEON Labs" "DSC35" "AEON Labs Micro Double Switch" "0086" "0003" "0023" [mkCC x00 false false true "1"; mkCC x20 false false true "1"; mkCC x25 true false true "1"; mkCC x27 true false true "1"; mkCC x60 true false true "2"; mkCC x70 true false true "1"; mkCC x72 true false true "1"; mkCC x85 true false true "1"; mkCC x86 true false true "1"]).
Definition dev40 := ("0086_0004_0050", mkDevice "AEON Labs" "DSD31" "Outlet Plugable Siren" "0086" "0004" "0050" [mkCC x00 false false true "1"; mkCC x20 false false true "1"; mkCC x25 true false true "1"; mkCC x2b true false true "1"; mkCC x2c true false true "0"; mkCC x59 true false true "0"; mkCC x5e true false true "1"; mkCC x70 true false true "1"; mkCC x72 true false true "1"; mkCC x73 true false true "1"; mkCC x7a true false true "0"; mkCC x85 true false true "1"; mkCC x86 true false true "1"; mkCC x98 true false true "0"]).
Definition dev41 := ("0086_0004_0025", mkDevice "AEON Labs" "DSD37" "Range Extender" "0086" "0004" "0025" [mkCC x00 false false true "1"; mkCC x20 true false true "1"; mkCC x70 true false true "1"; mkCC x72 true false true "1"; mkCC x73 true false true "1"; mkCC x85 true false true "1"; mkCC x86 true false true "1"]).
Definition dev42 := ("0086_0019_0004", mkDevice "AEON Labs" "DSD37" "Range Extender" "0086" "0019" "0004" [mkCC x00 false false true "1"; mkCC x20 true false true "1"; mkCC x70 true false true "1"; mkCC x72 true false true "1"; mkCC x73 true false true "1"; mkCC x85 true false true "1"; mkCC x86 true false true "1"]).
Definition dev43 := ("0086_0004_0038", mkDevice "AEON Labs" "ZW056" "Doorbell" "0086" "0004" "0038" [mkCC x00 false false true "1"; mkCC x20 false false true "1"; mkCC x25 true false true "1"; mkCC x59 true false true "0"; mkCC x5a true false true "1"; mkCC x5e true false true "1"; mkCC x70 true false true "1"; mkCC x72 true false true "1"; mkCC x73 true false true "1"; mkCC x7a true false true "0"; mkCC x85 true false true "1"; mkCC x86 true false true "1"; mkCC x98 true false true "0"]).
Definition dev44 := ("0086_0104_0038", mkDevice "AEON Labs" "ZW056" "Doorbell" "0086" "0104" "0038" [mkCC x00 false false true "1"; mkCC x20 false false true "1"; mkCC x25 true false true "1"; mkCC x59 true false true "0"; mkCC x5a true false true "1"; mkCC x5e true false true "1"; mkCC x70 true false true "1"; mkCC x72 true false true "1"; mkCC x73 true false true "1"; mkCC x7a true false true "0"; mkCC x85 true false true "1"; mkCC x86 true false true "1"; mkCC x98 true false true "0"]).
Definition dev45 := ("0086_0204_0038", mkDevice "AEON Labs" "ZW056" "Doorbell" "0086" "0204" "0038" [mkCC x00 false false true "1"; mkCC x20 false false true "1"; mkCC x25 true false true "1"; mkCC x59 true false true "0"; mkCC x5a true false true "1"; mkCC x5e true false true "1"; mkCC x70 true false true "1"; mkCC x72 true false true "1"; mkCC x73 true false true "1"; mkCC x7a true false true "0"; mkCC x85 true false true "1"; mkCC x86 true false true "1"; mkCC x98 true false true "0"]).
Definition dev46 := ("0086_0304_0038", mkDevice "AEON Labs" "ZW056" "Doorbell" "0086" "0304" "0038" [mkCC x00 false false true "1"; mkCC x20 false false true "1"; mkCC x25 true false true "1"; mkCC x59 true false true "0"; mkCC x5a true false true "1"; mkCC x5e true false true "1"; mkCC x70 true false true "1"; mkCC x72 true false true "1"; mkCC x73 true false true "1"; mkCC x7a true false true "0"; mkCC x85 true false true "1"; mkCC x86 true false true "1"; mkCC x98 true false true "0"]).
Definition dev47 := ("0086_0904_0038", mkDevice "AEON Labs" "ZW056" "Doorbell" "0086" "0904" "0038" [mkCC x00 false false true "1"; mkCC x20 false false true "1"; mkCC x25 true false true "1"; mkCC x59 true false true "0"; mkCC x5a true false true "1"; mkCC x5e true false true "1"; mkCC x70 true false true "1"; mkCC x72 true false true "1"; mkCC x73 true false true "1"; mkCC x7a true false true "0"; mkCC x85 true false true "1"; mkCC x86 true false true "1"; mkCC x98 true false true "0"]).
Definition dev48 := ("0086_0a04_0038", mkDevice "AEON Labs" "ZW056" "Doorbell" "0086" "0A04" "0038" [mkCC x00 false false true "1"; mkCC x20 false false true "1"; mkCC x25 true false true "1"; mkCC x59 true false true "0"; mkCC x5a true false true "1"; mkCC x5e true false true "1"; mkCC x70 true false true "1"; mkCC x72 true false true "1"; mkCC x73 true false true "1"; mkCC x7a true false true "0"; mkCC x85 true false true "1"; mkCC x86 true false true "1"; mkCC x98 true false true "0"]).
Definition dev49 := ("0086_1a04_0038", mkDevice "AEON Labs" "ZW056" "Doorbell" "0086" "1A04" "0038" [mkCC x00 false false true "1"; mkCC x20 false false true "1"; mkCC x25 true false true "1"; mkCC x59 true false true "0"; mkCC x5a true false true "1"; mkCC x5e true false true "1"; mkCC x70 true false true "1"; mkCC x72 true false true "1"; mkCC x73 true false true "1"; mkCC x7a true false true "0"; mkCC x85 true false true "1"; mkCC x86 true false true "1"; mkCC x98 true false true "0"]).
Definition dev50 := ("0086_1d04_0038", mkDevice "AEON Labs" "ZW056" "Doorbell" "0086" "1D04" "0038" [mkCC x00 false false true "1"; mkCC x20 false false true "1"; mkCC x25 true false true "1"; mkCC x59 true false true "0"; mkCC x5a true false true "1"; mkCC x5e true false true "1"; mkCC x70 true false true "1"; mkCC x72 true false true "1"; mkCC x73 true false true "1"; mkCC x7a true false true "0"; mkCC x85 true false true "1"; mkCC x86 true false true "1"; mkCC x98 true false true "0"]).
Definition dev51 := ("0086_0003_003e", mkDevice "AEON Labs" "ZW062" "Aeon Labs Garage Door Controller  Gen5 " "0086" "0003" "003E" [mkCC x00 false false true "1"; mkCC x20 false false true "1"; mkCC x25 false false true "1"; mkCC x66 false false false "1"; mkCC x70 false false true "1"; mkCC x72 false false true "1"; mkCC x85 false false true "1"; mkCC x86 false false true "1"]).
Definition dev52 := ("0086_0103_003e", mkDevice "AEON Labs" "ZW062" "Aeon Labs Garage Door Controller  Gen5 " "0086" "0103" "003E" [mkCC x00 false false true "1"; mkCC x20 false false true "1"; mkCC x25 false false true "1"; mkCC x66 false false false "1"; mkCC x70 false false true "1"; mkCC x72 false false true "1"; mkCC x85 false false true "1"; mkCC x86 false false true "1"]).
Definition dev53 := ("0086_0203_003e", mkDevice "AEON Labs" "ZW062" "Aeon Labs Garage Door Controller  Gen5 " "0086" "0203" "003E" [mkCC x00 false false true "1"; mkCC x20 false false true "1"; mkCC x25 false false true "1"; mkCC x66 false false false "1"; mkCC x70 false false true "1"; mkCC x72 false false true "1"; mkCC x85 false false true "1"; mkCC x86 false false true "1"]).
Definition dev54 := ("0086_0002_004a", mkDevice "AEON Labs" "ZW074" "4 in One MultiSensor (G5)" "0086" "0002" "004A" [mkCC x00 false false true "1"; mkCC x20 false false true "1"; mkCC x30 false false true "1"; mkCC x31 false false true "5"; mkCC x70 false false true "1"; mkCC x71 false false true "1"; mkCC x72 false false true "1"; mkCC x80 false false true "1"; mkCC x84 false false true "2"; mkCC x85 false false true "1"; mkCC x86 false false true "1"]).
Definition dev55 := ("0086_0102_004a", mkDevice "AEON Labs" "ZW074" "4 in One MultiSensor (G5)" "0086" "0102" "004A" [mkCC x00 false false true "1"; mkCC x20 false false true "1"; mkCC x30 false false true "1"; mkCC x31 false false true "5"; mkCC x70 false false true "1"; mkCC x71 false false true "1"; mkCC x72 false false true "1"; mkCC x80 false false true "1"; mkCC x84 false false true "2"; mkCC x85 false false true "1"; mkCC x86 false false true "1"]).
Definition dev56 := ("0086_0202_004a", mkDevice "AEON Labs" "ZW074" "4 in One MultiSensor (G5)" "0086" "0202" "004A" [mkCC x00 false false true "1"; mkCC x20 false false true "1"; mkCC x30 false false true "1"; mkCC x31 false false true "5"; mkCC x70 false false true "1"; mkCC x71 false false true "1"; mkCC x72 false false true "1"; mkCC x80 false false true "1"; mkCC x84 false false true "2"; mkCC x85 false false true "1"; mkCC x86 false false true "1"]).
Definition dev57 := ("0086_0003_004b", mkDevice "AEON Labs" "ZW075" "Smart Energy Switch 3rd Edition" "0086" "0003" "004B" [mkCC x00 false false true "1"; mkCC x20 false false true "1"; mkCC x22 false false true "0"; mkCC x25 false false true "1"; mkCC x27 false false true "0"; mkCC x2b false false true "1"; mkCC x30 false false true "0"; mkCC x32 false false true "3"; mkCC x56 false false true "1"; mkCC x59 false false false "0"; mkCC x70 false false true "1"; mkCC x72 false false true "1"; mkCC x84 false false true "0"; mkCC x85 false false true "1"; mkCC x86 false false true "1"]).
Definition dev58 := ("0086_0203_004b", mkDevice "AEON Labs" "ZW075" "Smart Energy Switch 3rd Edition" "0086" "0203" "004B" [mkCC x00 false false true "1"; mkCC x20 false false true "1"; mkCC x22 false false true "0"; mkCC x25 false false true "1"; mkCC x27 false false true "0"; mkCC x2b false false true "1"; mkCC x30 false false true "0"; mkCC x32 false false true "3"; mkCC x56 false false true "1"; mkCC x59 false false false "0"; mkCC x70 false false true "1"; mkCC x72 false false true "1"; mkCC x84 false false true "0"; mkCC x85 false false true "1"; mkCC x86 false false true "1"]).
Definition dev59 := ("0086_0003_004e", mkDevice "AEON Labs" "ZW078" "Heavy Duty Switch" "0086" "0003" "004E" [mkCC x20 true false true "1"; mkCC x25 true false true "1"; mkCC x27 true false true "1"; mkCC x2b true false true "1"; mkCC x2c true false true "1"; mkCC x31 true false true "5"; mkCC x32 true false true "3"; mkCC x56 true true true "1"; mkCC x59 true false true "1"; mkCC x5a true true true "1"; mkCC x5e true true true "2"; mkCC x70 true false true "1"; mkCC x72 true true true "2"; mkCC x73 true false true "1"; mkCC x82 true true true "1"; mkCC x85 true false true "2"; mkCC x86 true true true "2"; mkCC xef false false false "1"]).
Definition dev60 := ("0086_0103_004e", mkDevice "AEON Labs" "ZW078" "Heavy Duty Switch" "0086" "0103" "004E" [mkCC x20 true false true "1"; mkCC x25 true false true "1"; mkCC x27 true false true "1"; mkCC x2b true false true "1"; mkCC x2c true false true "1"; mkCC x31 true false true "5"; mkCC x32 true false true "3"; mkCC x56 true true true "1"; mkCC x59 true false true "1"; mkCC x5a true true true "1"; mkCC x5e true true true "2"; mkCC x70 true false true "1"; mkCC x72 true true true "2"; mkCC x73 true false true "1"; mkCC x82 true true true "1"; mkCC x85 true false true "2"; mkCC x86 true true true "2"; mkCC xef false false false "1"]).
Definition dev61 := ("0086_0203_004e", mkDevice "AEON Labs" "ZW078" "Heavy Duty Switch" "0086" "0203" "004E" [mkCC x20 true false true "1"; mkCC x25 true false true "1"; mkCC x27 true false true "1"; mkCC x2b true false true "1"; mkCC x2c true false true "1"; mkCC x31 true false true "5"; mkCC x32 true false true "3"; mkCC x56 true true true "1"; mkCC x59 true false true "1"; mkCC x5a true true true "1"; mkCC x5e true true true "2"; mkCC x70 true false true "1"; mkCC x72 true true true "2"; mkCC x73 true false true "1"; mkCC x82 true true true "1"; mkCC x85 true false true "2"; mkCC x86 true true true "2"; mkCC xef false false false "1"]).
Definition dev62 := ("0086_0104_0050", mkDevice "AEON Labs" "ZW080" "Siren Gen5" "0086" "0104" "0050" [mkCC x00 false false true "1"; mkCC x20 false false true "1"; mkCC x25 true false true "1"; mkCC x2b true false true "1"; mkCC x2c true false true "0"; mkCC x59 true false true "0"; mkCC x5e true false true "1"; mkCC x70 true false true "1"; mkCC x72 true false true "1"; mkCC x73 true false true "1"; mkCC x7a true false true "0"; mkCC x85 true false true "1"; mkCC x86 true false true "1"; mkCC x98 true false true "0"]).
Definition dev63 := ("0086_0204_0050", mkDevice "AEON Labs" "ZW080" "Siren Gen5" "0086" "0204" "0050" [mkCC x00 false false true "1"; mkCC x20 false false true "1"; mkCC x25 true false true "1"; mkCC x2b true false true "1"; mkCC x2c true false true "0"; mkCC x59 true false true "0"; mkCC x5e true false true "1"; mkCC x70 true false true "1"; mkCC x72 true false true "1"; mkCC x73 true false true "1"; mkCC x7a true false true "0"; mkCC x85 true false true "1"; mkCC x86 true false true "1"; mkCC x98 true false true "0"]).
Definition dev64 := ("0086_0001_0058", mkDevice "AEON Labs" "ZW088" "4 button keyfob - Gen 5" "0086" "0001" "0058" [mkCC x00 false false true "0"; mkCC x20 false false true "0"; mkCC x2b false false true "0"; mkCC x59 true false true "0"; mkCC x5a true false true "0"; mkCC x5e true false true "0"; mkCC x70 true false true "0"; mkCC x72 true false true "0"; mkCC x73 true false true "0"; mkCC x80 true false true "0"; mkCC x84 true false true "0"; mkCC x85 true false true "0"; mkCC x86 true false true "0"]).
Definition dev65 := ("0086_0101_0058", mkDevice "AEON Labs" "ZW088" "4 button keyfob - Gen 5" "0086" "0101" "0058" [mkCC x00 false false true "0"; mkCC x20 false false true "0"; mkCC x2b false false true "0"; mkCC x59 true false true "0"; mkCC x5a true false true "0"; mkCC x5e true false true "0"; mkCC x70 true false true "0"; mkCC x72 true false true "0"; mkCC x73 true false true "0"; mkCC x80 true false true "0"; mkCC x84 true false true "0"; mkCC x85 true false true "0"; mkCC x86 true false true "0"]).
Definition dev66 := ("0086_0201_0058", mkDevice "AEON Labs" "ZW088" "4 button keyfob - Gen 5" "0086" "0201" "0058" [mkCC x00 false false true "0"; mkCC x20 false false true "0"; mkCC x2b false false true "0"; mkCC x59 true false true "0"; mkCC x5a true false true "0"; mkCC x5e true false true "0"; mkCC x70 true false true "0"; mkCC x72 true false true "0"; mkCC x73 true false true "0"; mkCC x80 true false true "0"; mkCC x84 true false true "0"; mkCC x85 true false true "0"; mkCC x86 true false true "0"]).
Definition dev67 := ("0086_0002_0059", mkDevice "AEON Labs" "ZW089" "Recessed Door Sensor Gen5" "0086" "0002" "0059" [mkCC x00 false false true "1"; mkCC x20 false false true "1"; mkCC x30 false false true "1"; mkCC x70 false false true "1"; mkCC x71 false false true "1"; mkCC x72 false false true "1"; mkCC x80 false false true "1"; mkCC x84 false false true "2"; mkCC x85 false false true "1"; mkCC x86 false false true "1"]).
Definition dev68 := ("0086_0102_0059", mkDevice "AEON Labs" "ZW089" "Recessed Door Sensor Gen5" "0086" "0102" "0059" [mkCC x00 false false true "1"; mkCC x20 false false true "1"; mkCC x30 false false true "1"; mkCC x70 false false true "1"; mkCC x71 false false true "1"; mkCC x72 false false true "1"; mkCC x80 false false true "1"; mkCC x84 false false true "2"; mkCC x85 false false true "1"; mkCC x86 false false true "1"]).
Definition dev69 := ("0086_0202_0059", mkDevice "AEON Labs" "ZW089" "Recessed Door Sensor Gen5" "0086" "0202" "0059" [mkCC x00 false false true "1"; mkCC x20 false false true "1"; mkCC x30 false false true "1"; mkCC x70 false false true "1"; mkCC x71 false false true "1"; mkCC x72 false false true "1"; mkCC x80 false false true "1"; mkCC x84 false false true "2"; mkCC x85 false false true "1"; mkCC x86 false false true "1"]).
Definition dev70 := ("0086_0002_005f", mkDevice "AEON Labs" "ZW095" "Home Energy Meter - Gen 5 " "0086" "0002" "005F" [mkCC x20 false false true "1"; mkCC x32 true true true "3"; mkCC x56 true true true "1"; mkCC x59 true true true "1"; mkCC x5a false true true "1"; mkCC x5e true false true "2"; mkCC x60 true true true "3"; mkCC x70 true true true "1"; mkCC x72 true true true "2"; mkCC x73 true true true "1"; mkCC x7a true true true "2"; mkCC x85 true true true "2"; mkCC x86 true true true "2"; mkCC x8e true true true "2"; mkCC x98 true false true "1"; mkCC xef true false true "1"]).
Definition dev71 := ("0086_0102_005f", mkDevice "AEON Labs" "ZW095" "Home Energy Meter - Gen 5 " "0086" "0102" "005F" [mkCC x20 false false true "1"; mkCC x32 true true true "3"; mkCC x56 true true true "1"; mkCC x59 true true true "1"; mkCC x5a false true true "1"; mkCC x5e true false true "2"; mkCC x60 true true true "3"; mkCC x70 true true true "1"; mkCC x72 true true true "2"; mkCC x73 true true true "1"; mkCC x7a true true true "2"; mkCC x85 true true true "2"; mkCC x86 true true true "2"; mkCC x8e true true true "2"; mkCC x98 true false true "1"; mkCC xef true false true "1"]).
Definition dev72 := ("0086_0003_0060", mkDevice "AEON Labs" "ZW096" "Smart Switch 6" "0086" "0003" "0060" [mkCC x00 false false true "1"; mkCC x20 false false true "1"; mkCC x25 false false true "1"; mkCC x27 false false true "1"; mkCC x32 false false true "3"; mkCC x33 false false false "1"; mkCC x70 false false true "1"; mkCC x72 false false true "1"; mkCC x85 false false true "1"; mkCC x86 false false true "1"]).
Definition dev73 := ("0086_0103_0060", mkDevice "AEON Labs" "ZW096" "Smart Switch 6" "0086" "0103" "0060" [mkCC x00 false false true "1"; mkCC x20 false false true "1"; mkCC x25 false false true "1"; mkCC x27 false false true "1"; mkCC x32 false false true "3"; mkCC x33 false false false "1"; mkCC x70 false false true "1"; mkCC x72 false false true "1"; mkCC x85 false false true "1"; mkCC x86 false false true "1"]).
Definition dev74 := ("0086_0203_0060", mkDevice "AEON Labs" "ZW096" "Smart Switch 6" "0086" "0203" "0060" [mkCC x00 false false true "1"; mkCC x20 false false true "1"; mkCC x25 false false true "1"; mkCC x27 false false true "1"; mkCC x32 false false true "3"; mkCC x33 false false false "1"; mkCC x70 false false true "1"; mkCC x72 false false true "1"; mkCC x85 false false true "1"; mkCC x86 false false true "1"]).
Definition dev75 := ("0086_1d03_0060", mkDevice "AEON Labs" "ZW096" "Smart Switch 6" "0086" "1D03" "0060" [mkCC x00 false false true "1"; mkCC x20 false false true "1"; mkCC x25 false false true "1"; mkCC x27 false false true "1"; mkCC x32 false false true "3"; mkCC x33 false false false "1"; mkCC x70 false false true "1"; mkCC x72 false false true "1"; mkCC x85 false false true "1"; mkCC x86 false false true "1"]).
Definition dev76 := ("0086_0002_0061", mkDevice "AEON Labs" "ZW097" "Dry Contact Sensor" "0086" "0002" "0061" [mkCC x00 false false true "1"; mkCC x20 false true true "1"; mkCC x30 false true true "1"; mkCC x59 true true true "1"; mkCC x5e true false true "2"; mkCC x70 false true true "1"; mkCC x71 true true true "3"; mkCC x72 true false true "2"; mkCC x73 false true true "1"; mkCC x7a false true true "2"; mkCC x80 false true true "1"; mkCC x82 true false true "1"; mkCC x84 false true true "2"; mkCC x85 true true true "2"; mkCC x86 false false true "2"; mkCC xef false false true "1"]).
Definition dev77 := ("0086_0102_0061", mkDevice "AEON Labs" "ZW097" "Dry Contact Sensor" "0086" "0102" "0061" [mkCC x00 false false true "1"; mkCC x20 false true true "1"; mkCC x30 false true true "1"; mkCC x59 true true true "1"; mkCC x5e true false true "2"; mkCC x70 false true true "1"; mkCC x71 true true true "3"; mkCC x72 true false true "2"; mkCC x73 false true true "1"; mkCC x7a false true true "2"; mkCC x80 false true true "1"; mkCC x82 true false true "1"; mkCC x84 false true true "2"; mkCC x85 true true true "2"; mkCC x86 false false true "2"; mkCC xef false false true "1"]).
Definition dev78 := ("0086_0202_0061", mkDevice "AEON Labs" "ZW097" "Dry Contact Sensor" "0086" "0202" "0061" [mkCC x00 false false true "1"; mkCC x20 false true true "1"; mkCC x30 false true true "1"; mkCC x59 true true true "1"; mkCC x5e true false true "2"; mkCC x70 false true true "1"; mkCC x71 true true true "3"; mkCC x72 true false true "2"; mkCC x73 false true true "1"; mkCC x7a false true true "2"; mkCC x80 false true true "1"; mkCC x82 true false true "1"; mkCC x84 false true true "2"; mkCC x85 true true true "2"; mkCC x86 false false true "2"; mkCC xef false false true "1"]).
Definition dev79 := ("0086_0003_0062", mkDevice "AEON Labs" "ZW098" "LED Bulb" "0086" "0003" "0062" [mkCC x00 false false true "1"; mkCC x20 false false true "1"; mkCC x26 false false true "2"; mkCC x27 false false true "0"; mkCC x2b false false true "1"; mkCC x32 false false true "0"; mkCC x33 false false true "2"; mkCC x70 false false true "1"; mkCC x72 false false true "1"; mkCC x85 false false true "1"; mkCC x86 false false true "1"]).
Definition dev80 := ("0086_0103_0062", mkDevice "AEON Labs" "ZW098" "LED Bulb" "0086" "0103" "0062" [mkCC x00 false false true "1"; mkCC x20 false false true "1"; mkCC x26 false false true "2"; mkCC x27 false false true "0"; mkCC x2b false false true "1"; mkCC x32 false false true "0"; mkCC x33 false false true "2"; mkCC x70 false false true "1"; mkCC x72 false false true "1"; mkCC x85 false false true "1"; mkCC x86 false false true "1"]).
Definition dev81 := ("0086_0203_0062", mkDevice "AEON Labs" "ZW098" "LED Bulb" "0086" "0203" "0062" [mkCC x00 false false true "1"; mkCC x20 false false true "1"; mkCC x26 false false true "2"; mkCC x27 false false true "0"; mkCC x2b false false true "1"; mkCC x32 false false true "0"; mkCC x33 false false true "2"; mkCC x70 false false true "1"; mkCC x72 false false true "1"; mkCC x85 false false true "1"; mkCC x86 false false true "1"]).
Definition dev82 := ("0086_0003_0063", mkDevice "AEON Labs" "ZW099" "Smart Dimmer 6" "0086" "0003" "0063" [mkCC x00 false false true "1"; mkCC x20 false false true "1"; mkCC x26 true true true "2"; mkCC x27 true true true "1"; mkCC x32 true true true "3"; mkCC x33 true true true "1"; mkCC x59 true true true "1"; mkCC x5a true true true "1"; mkCC x5e true true true "2"; mkCC x60 true true true "4"; mkCC x70 true true true "1"; mkCC x72 true true true "2"; mkCC x73 true true true "1"; mkCC x7a true true true "2"; mkCC x81 true true true "1"; mkCC x82 true true true "1"; mkCC x85 true true true "2"; mkCC x86 true true true "2"; mkCC x8e true true true "3"; mkCC x98 true true false "1"; mkCC xef true true true "1"]).
Definition dev83 := ("0086_0103_0063", mkDevice "AEON Labs" "ZW099" "Smart Dimmer 6" "0086" "0103" "0063" [mkCC x00 false false true "1"; mkCC x20 false false true "1"; mkCC x26 true true true "2"; mkCC x27 true true true "1"; mkCC x32 true true true "3"; mkCC x33 true true true "1"; mkCC x59 true true true "1"; mkCC x5a true true true "1"; mkCC x5e true true true "2"; mkCC x60 true true true "4"; mkCC x70 true true true "1"; mkCC x72 true true true "2"; mkCC x73 true true true "1"; mkCC x7a true true true "2"; mkCC x81 true true true "1"; mkCC x82 true true true "1"; mkCC x85 true true true "2"; mkCC x86 true true true "2"; mkCC x8e true true true "3"; mkCC x98 true true false "1"; mkCC xef true true true "1"]).
Definition dev84 := ("0086_0203_0063", mkDevice "AEON Labs" "ZW099" "Smart Dimmer 6" "0086" "0203" "0063" [mkCC x00 false false true "1"; mkCC x20 false false true "1"; mkCC x26 true true true "2"; mkCC x27 true true true "1"; mkCC x32 true true true "3"; mkCC x33 true true true "1"; mkCC x59 true true true "1"; mkCC x5a true true true "1"; mkCC x5e true true true "2"; mkCC x60 true true true "4"; mkCC x70 true true true "1"; mkCC x72 true true true "2"; mkCC x73 true true true "1"; mkCC x7a true true true "2"; mkCC x81 true true true "1"; mkCC x82 true true true "1"; mkCC x85 true true true "2"; mkCC x86 true true true "2"; mkCC x8e true true true "3"; mkCC x98 true true false "1"; mkCC xef true true true "1"]).
Definition dev85 := ("0086_1d03_0063", mkDevice "AEON Labs" "ZW099" "Smart Dimmer 6" "0086" "1D03" "0063" [mkCC x00 false false true "1"; mkCC x20 false false true "1"; mkCC x26 true true true "2"; mkCC x27 true true true "1"; mkCC x32 true true true "3"; mkCC x33 true true true "1"; mkCC x59 true true true "1"; mkCC x5a true true true "1"; mkCC x5e true true true "2"; mkCC x60 true true true "4"; mkCC x70 true true true "1"; mkCC x72 true true true "2"; mkCC x73 true true true "1"; mkCC x7a true true true "2"; mkCC x81 true true true "1"; mkCC x82 true true true "1"; mkCC x85 true true true "2"; mkCC x86 true true true "2"; mkCC x8e true true true "3"; mkCC x98 true true false "1"; mkCC xef true true true "1"]).
Definition dev86 := ("0086_0002_0064", mkDevice "AEON Labs" "ZW100" "MultiSensor 6" "0086" "0002" "0064" [mkCC x00 false false true "1"; mkCC x20 false false true "1"; mkCC x30 false false true "1"; mkCC x31 false false true "5"; mkCC x70 false false true "1"; mkCC x71 false false true "3"; mkCC x72 false false true "1"; mkCC x80 false false true "1"; mkCC x84 false false true "2"; mkCC x85 false false true "1"; mkCC x86 false false true "1"]).
Definition dev87 := ("0086_0102_0064", mkDevice "AEON Labs" "ZW100" "MultiSensor 6" "0086" "0102" "0064" [mkCC x00 false false true "1"; mkCC x20 false false true "1"; mkCC x30 false false true "1"; mkCC x31 false false true "5"; mkCC x70 false false true "1"; mkCC x71 false false true "3"; mkCC x72 false false true "1"; mkCC x80 false false true "1"; mkCC x84 false false true "2"; mkCC x85 false false true "1"; mkCC x86 false false true "1"]).
Definition dev88 := ("0086_0202_0064", mkDevice "AEON Labs" "ZW100" "MultiSensor 6" "0086" "0202" "0064" [mkCC x00 false false true "1"; mkCC x20 false false true "1"; mkCC x30 false false true "1"; mkCC x31 false false true "5"; mkCC x70 false false true "1"; mkCC x71 false false true "3"; mkCC x72 false false true "1"; mkCC x80 false false true "1"; mkCC x84 false false true "2"; mkCC x85 false false true "1"; mkCC x86 false false true "1"]).
Definition dev89 := ("0086_0103_006f", mkDevice "AEON Labs" "ZW111" "Nano Dimmer " "0086" "0103" "006F" [mkCC x00 false false true "1"; mkCC x20 false false true "1"; mkCC x25 true false true "1"; mkCC x26 true false true "3"; mkCC x27 true false true "1"; mkCC x2b true false true "1"; mkCC x2c true false true "1"; mkCC x32 true false true "3"; mkCC x59 true false true "1"; mkCC x5a true false true "1"; mkCC x5e true false true "2"; mkCC x70 true false true "1"; mkCC x71 true false true "4"; mkCC x72 true false true "2"; mkCC x73 true false true "1"; mkCC x7a true false true "3"; mkCC x81 true false true "1"; mkCC x82 false false false "0"; mkCC x85 true false true "2"; mkCC x86 true false true "2"]).
Definition dev90 := ("0086_0203_006f", mkDevice "AEON Labs" "ZW111" "Nano Dimmer " "0086" "0203" "006F" [mkCC x00 false false true "1"; mkCC x20 false false true "1"; mkCC x25 true false true "1"; mkCC x26 true false true "3"; mkCC x27 true false true "1"; mkCC x2b true false true "1"; mkCC x2c true false true "1"; mkCC x32 true false true "3"; mkCC x59 true false true "1"; mkCC x5a true false true "1"; mkCC x5e true false true "2"; mkCC x70 true false true "1"; mkCC x71 true false true "4"; mkCC x72 true false true "2"; mkCC x73 true false true "1"; mkCC x7a true false true "3"; mkCC x81 true false true "1"; mkCC x82 false false false "0"; mkCC x85 true false true "2"; mkCC x86 true false true "2"]).
Definition dev91 := ("0086_0002_0070", mkDevice "AEON Labs" "ZW112" "Door/Window Sensor 6" "0086" "0002" "0070" [mkCC x20 true false true "1"; mkCC x30 true false true "1"; mkCC x59 true false true "0"; mkCC x5a true false true "0"; mkCC x5e true false true "0"; mkCC x70 true false true "1"; mkCC x71 true false true "1"; mkCC x72 true false true "1"; mkCC x73 true false true "0"; mkCC x7a true false true "2"; mkCC x80 true false true "1"; mkCC x84 true false true "2"; mkCC x85 true false true "1"; mkCC x86 true false true "1"; mkCC x98 true true true "0"]).
Definition dev92 := ("0086_0102_0070", mkDevice "AEON Labs" "ZW112" "Door/Window Sensor 6" "0086" "0102" "0070" [mkCC x20 true false true "1"; mkCC x30 true false true "1"; mkCC x59 true false true "0"; mkCC x5a true false true "0"; mkCC x5e true false true "0"; mkCC x70 true false true "1"; mkCC x71 true false true "1"; mkCC x72 true false true "1"; mkCC x73 true false true "0"; mkCC x7a true false true "2"; mkCC x80 true false true "1"; mkCC x84 true false true "2"; mkCC x85 true false true "1"; mkCC x86 true false true "1"; mkCC x98 true true true "0"]).
Definition dev93 := ("0086_0202_0070", mkDevice "AEON Labs" "ZW112" "Door/Window Sensor 6" "0086" "0202" "0070" [mkCC x20 true false true "1"; mkCC x30 true false true "1"; mkCC x59 true false true "0"; mkCC x5a true false true "0"; mkCC x5e true false true "0"; mkCC x70 true false true "1"; mkCC x71 true false true "1"; mkCC x72 true false true "1"; mkCC x73 true false true "0"; mkCC x7a true false true "2"; mkCC x80 true false true "1"; mkCC x84 true false true "2"; mkCC x85 true false true "1"; mkCC x86 true false true "1"; mkCC x98 true true true "0"]).
Definition dev94 := ("0086_1d02_0070", mkDevice "AEON Labs" "ZW112" "Door/Window Sensor 6" "0086" "1D02" "0070" [mkCC x20 true false true "1"; mkCC x30 true false true "1"; mkCC x59 true false true "0"; mkCC x5a true false true "0"; mkCC x5e true false true "0"; mkCC x70 true false true "1"; mkCC x71 true false true "1"; mkCC x72 true false true "1"; mkCC x73 true false true "0"; mkCC x7a true false true "2"; mkCC x80 true false true "1"; mkCC x84 true false true "2"; mkCC x85 true false true "1"; mkCC x86 true false true "1"; mkCC x98 true true true "0"]).
Definition dev95 := ("0086_0004_0075", mkDevice "AEON Labs" "ZW117" "Range Extender 6" "0086" "0004" "0075" [mkCC x00 false false true "1"; mkCC x20 false false true "1"; mkCC x26 true false true "2"; mkCC x33 true false true "1"; mkCC x59 true false true "1"; mkCC x5a true true true "1"; mkCC x5e true true true "1"; mkCC x70 true false true "1"; mkCC x72 true true true "1"; mkCC x73 true false true "1"; mkCC x7a true false true "1"; mkCC x85 true false true "2"; mkCC x86 true true true "2"]).
Definition dev96 := ("0086_0002_0082", mkDevice "AEON Labs" "ZW130" "WallMote Quad" "0086" "0002" "0082" [mkCC x00 false false true "1"; mkCC x20 false false true "1"; mkCC x59 true false true "1"; mkCC x5a true false true "1"; mkCC x5b true false true "2"; mkCC x5e true false true "1"; mkCC x60 true false true "2"; mkCC x70 true false true "1"; mkCC x71 true false true "4"; mkCC x72 true false true "1"; mkCC x73 true false true "1"; mkCC x7a true false true "1"; mkCC x80 true false true "1"; mkCC x84 true false true "2"; mkCC x85 true false true "2"; mkCC x86 true false true "2"; mkCC x8e true false true "3"]).
Definition dev97 := ("0086_0102_0082", mkDevice "AEON Labs" "ZW130" "WallMote Quad" "0086" "0102" "0082" [mkCC x00 false false true "1"; mkCC x20 false false true "1"; mkCC x59 true false true "1"; mkCC x5a true false true "1"; mkCC x5b true false true "2"; mkCC x5e true false true "1"; mkCC x60 true false true "2"; mkCC x70 true false true "1"; mkCC x71 true false true "4"; mkCC x72 true false true "1"; mkCC x73 true false true "1"; mkCC x7a true false true "1"; mkCC x80 true false true "1"; mkCC x84 true false true "2"; mkCC x85 true false true "2"; mkCC x86 true false true "2"; mkCC x8e true false true "3"]).
Definition dev98 := ("0086_0202_0082", mkDevice "AEON Labs" "ZW130" "WallMote Quad" "0086" "0202" "0082" [mkCC x00 false false true "1"; mkCC x20 false false true "1"; mkCC x59 true false true "1"; mkCC x5a true false true "1"; mkCC x5b true false true "2"; mkCC x5e true false true "1"; mkCC x60 true false true "2"; mkCC x70 true false true "1"; mkCC x71 true false true "4"; mkCC x72 true false true "1"; mkCC x73 true false true "1"; mkCC x7a true false true "1"; mkCC x80 true false true "1"; mkCC x84 true false true "2"; mkCC x85 true false true "2"; mkCC x86 true false true "2"; mkCC x8e true false true "3"]).
Definition dev99 := ("0111_8200_0200", mkDevice "Airline Mechanical Co., Ltd." "ZDS-UD10" "Dimming Switch Module" "0111" "8200" "0200" [mkCC x00 true false true "1"; mkCC x20 true false true "1"; mkCC x26 true false true "2"; mkCC x27 true false true "1"; mkCC x72 true false true "1"; mkCC x73 true false true "1"; mkCC x86 true false true "1"]).
Definition dev100 := ("008a_0005_0101", mkDevice "BeNext" "BeNext Alarm Sound" "Alarm sound" "008A" "0005" "0101" [mkCC x00 false false true "1"; mkCC x20 false false true "1"; mkCC x25 true false true "1"; mkCC x70 true false true "1"; mkCC x71 true false true "1"; mkCC x72 true false true "1"; mkCC x73 true false true "1"; mkCC x85 true false true "1"; mkCC x86 true false true "1"; mkCC x8f true false true "1"]).
Definition dev101 := ("008a_000d_0100", mkDevice "BeNext" "builtInDimmer" "BeNext Built-in Dimmer" "008A" "000D" "0100" [mkCC x00 false false true "1"; mkCC x20 false false true "1"; mkCC x26 false false true "1"; mkCC x31 false false true "5"; mkCC x32 false false true "2"; mkCC x70 false false true "1"; mkCC x72 false false true "1"; mkCC x85 false false true "1"; mkCC x86 false false true "1"]).
Definition dev102 := ("008a_0004_0100", mkDevice "BeNext" "doorSensor" "BeNext Door Sensor" "008A" "0004" "0100" [mkCC x00 false false true "1"; mkCC x20 false false true "1"; mkCC x30 true false true "1"; mkCC x31 true false true "1"; mkCC x70 true false true "1"; mkCC x71 true false true "1"; mkCC x72 true false true "1"; mkCC x80 true false true "1"; mkCC x84 true false true "1"; mkCC x85 true false true "1"; mkCC x86 true false true "1"]).
Definition dev103 := ("008a_0004_0101", mkDevice "BeNext" "doorSensor" "BeNext Door Sensor" "008A" "0004" "0101" [mkCC x00 false false true "1"; mkCC x20 false false true "1"; mkCC x30 true false true "1"; mkCC x31 true false true "1"; mkCC x70 true false true "1"; mkCC x71 true false true "1"; mkCC x72 true false true "1"; mkCC x80 true false true "1"; mkCC x84 true false true "1"; mkCC x85 true false true "1"; mkCC x86 true false true "1"]).
Definition dev104 := ("008a_0020_0001", mkDevice "BeNext" "Energy Switch +" "Energy Switch +" "008A" "0020" "0001" [mkCC x25 false false true "1"; mkCC x27 false false true "1"; mkCC x32 false false true "3"; mkCC x56 false false true "1"; mkCC x70 false false true "1"; mkCC x72 false false true "1"; mkCC x73 false false true "1"; mkCC x75 false false true "1"; mkCC x85 false false true "1"; mkCC x86 false false true "1"]).
Definition dev105 := ("008a_0021_0102", mkDevice "BeNext" "Heating Control" "Thermostat for controlling the opentherm protocol" "008A" "0021" "0102" [mkCC x20 false false true "1"; mkCC x31 false false true "6"; mkCC x40 false false true "1"; mkCC x43 false false true "1"; mkCC x56 false false true "1"; mkCC x72 false false true "1"; mkCC x7a false false false "3"; mkCC x85 false false true "2"; mkCC x86 false false true "1"]).
Definition dev106 := ("008a_0003_0101", mkDevice "BeNext" "Molite" "Movement sensor with temperature and light sensor" "008A" "0003" "0101" [mkCC x00 false false true "1"; mkCC x20 false false true "1"; mkCC x30 false false true "1"; mkCC x31 false false true "5"; mkCC x70 false false true "1"; mkCC x71 false false true "1"; mkCC x72 false false true "1"; mkCC x80 false false true "1"; mkCC x84 false false true "1"; mkCC x85 false false true "1"; mkCC x86 false false true "1"]).
Definition dev107 := ("008a_0003_0100", mkDevice "BeNext" "Molite" "Movement sensor with temperature and light sensor" "008A" "0003" "0100" [mkCC x00 false false true "1"; mkCC x20 false false true "1"; mkCC x30 false false true "1"; mkCC x31 false false true "5"; mkCC x70 false false true "1"; mkCC x71 false false true "1"; mkCC x72 false false true "1"; mkCC x80 false false true "1"; mkCC x84 false false true "1"; mkCC x85 false false true "1"; mkCC x86 false false true "1"]).
Definition dev108 := ("008a_002f_0100", mkDevice "BeNext" "P1-dongle" "P1-dongle" "008A" "002F" "0100" [mkCC x32 true false true "3"; mkCC x56 true false true "1"; mkCC x59 true false true "0"; mkCC x5a true false true "1"; mkCC x5e true false true "1"; mkCC x60 true false true "2"; mkCC x70 true false true "1"; mkCC x72 true false true "1"; mkCC x7a true false true "0"; mkCC x85 true false true "1"; mkCC x86 true false true "1"; mkCC x98 true false true "0"]).
Definition dev109 := ("008a_0018_0100", mkDevice "BeNext" "plugInDimmer" "BeNext Plug-in Dimmer" "008A" "0018" "0100" [mkCC x00 false false true "1"; mkCC x20 false false true "1"; mkCC x26 true false true "1"; mkCC x27 true false true "1"; mkCC x31 true false true "5"; mkCC x32 true false true "2"; mkCC x70 true false true "1"; mkCC x72 true false true "1"; mkCC x73 true false true "1"; mkCC x85 true false true "1"; mkCC x86 true false true "1"]).
Definition dev110 := ("008a_0008_0101", mkDevice "BeNext" "powerSwitch" "BeNext Power Switch EU" "008A" "0008" "0101" [mkCC x00 false false true "1"; mkCC x20 false false true "1"; mkCC x25 true false true "1"; mkCC x27 true false true "1"; mkCC x70 true false true "1"; mkCC x72 true false true "1"; mkCC x73 true false true "1"; mkCC x75 true false true "1"; mkCC x85 true false true "1"; mkCC x86 true false true "1"]).
Definition dev111 := ("008a_0007_0101", mkDevice "BeNext" "Tag Reader" "Tag Reader" "008A" "0007" "0101" [mkCC x00 false false true "1"; mkCC x20 false false true "1"; mkCC x25 true false true "1"; mkCC x63 true false true "1"; mkCC x70 true false true "1"; mkCC x71 true false true "2"; mkCC x72 true false true "1"; mkCC x76 false false true "1"; mkCC x80 true false true "1"; mkCC x84 true false true "1"; mkCC x85 true false true "1"; mkCC x86 true false true "1"]).
Definition dev112 := ("0169_0001_0001", mkDevice "Bönig und Kallenbach oHG" "POPE005206" "Z Weather" "0169" "0001" "0001" [mkCC x00 false false true "1"; mkCC x20 false false true "1"; mkCC x30 false false true "0"; mkCC x31 true false true "6"; mkCC x32 true false true "3"; mkCC x59 true false true "1"; mkCC x5a false false true "0"; mkCC x5e true false true "1"; mkCC x70 true false true "1"; mkCC x72 true false true "1"; mkCC x73 true false true "1"; mkCC x80 true false true "1"; mkCC x84 true false true "2"; mkCC x85 true false true "1"; mkCC x86 true false true "1"; mkCC x89 true false true "1"; mkCC x8e true false true "0"; mkCC x8f true false true "1"; mkCC x9b true false true "0"]).
Definition dev113 := ("0138_0001_0002", mkDevice "BRK Brands, Inc." "ZCOMBO" "Smoke and Carbon Monoxide Alarm" "0138" "0001" "0002" [mkCC x00 false false true "1"; mkCC x20 false false true "1"; mkCC x70 false false true "1"; mkCC x71 false false true "1"; mkCC x72 false false true "1"; mkCC x80 false false true "1"; mkCC x85 false false true "1"; mkCC x86 false false true "1"]).
Definition dev114 := ("0138_0001_0001", mkDevice "BRK Brands, Inc." "ZSMOKE" "Smoke Alarm" "0138" "0001" "0001" [mkCC x00 false false true "1"; mkCC x20 false false true "1"; mkCC x70 false false true "1"; mkCC x71 false false true "1"; mkCC x72 false false true "1"; mkCC x80 false false true "1"; mkCC x85 false false true "1"; mkCC x86 false false true "1"]).
Definition dev115 := ("0166_0100_0100", mkDevice "CBCC Domotique SAS" "SW-ZCS-1" "Cord Switch" "0166" "0100" "0100" [mkCC x00 false false true "1"; mkCC x20 false false true "1"; mkCC x25 true false true "1"; mkCC x27 true false true "1"; mkCC x72 true false true "1"; mkCC x85 true false true "1"; mkCC x86 true false true "1"]).
Definition dev116 := ("0116_0002_0001", mkDevice "Chromagic Technologies Corporation" "HSM02" "Door Window Sensor" "0116" "0002" "0001" [mkCC x00 false false true "1"; mkCC x20 true false true "1"; mkCC x30 true false true "1"; mkCC x70 true false true "1"; mkCC x71 true false true "1"; mkCC x72 true false true "1"; mkCC x80 true false true "1"; mkCC x84 true false true "1"; mkCC x85 true false true "1"; mkCC x86 true false true "1"]).
Definition dev117 := ("0116_0001_0001", mkDevice "Chromagic Technologies Corporation" "SM103" "Door/Window Contact" "0116" "0001" "0001" [mkCC x00 false false true "1"; mkCC x20 true false true "1"; mkCC x30 true false true "1"; mkCC x70 true false true "1"; mkCC x71 true false true "1"; mkCC x72 true false true "1"; mkCC x80 true false true "1"; mkCC x84 true false true "1"; mkCC x85 true false true "1"; mkCC x86 true false true "1"]).
Definition dev118 := ("0200_0003_0002", mkDevice "Cloud Media" "A803N" "Motion Sensor" "0200" "0003" "0002" [mkCC x00 false false true "1"; mkCC x20 false false true "1"; mkCC x30 false false true "2"; mkCC x31 false false true "5"; mkCC x70 false false true "1"; mkCC x71 false false true "1"; mkCC x72 false false true "1"; mkCC x80 false false true "1"; mkCC x84 false false true "2"; mkCC x85 false false true "1"; mkCC x86 false false true "1"]).
Definition dev119 := ("0179_0013_0021", mkDevice "ConnectHome" "CH-201" "CH-201 Thermostat" "0179" "0013" "0021" [mkCC x00 false false true "1"; mkCC x20 false false true "1"; mkCC x31 true false true "4"; mkCC x40 true false true "1"; mkCC x42 true false true "1"; mkCC x43 true false true "1"; mkCC x60 true false true "2"; mkCC x70 true false true "1"; mkCC x72 true false true "1"; mkCC x7a true false true "1"; mkCC x85 true false true "1"; mkCC x86 true false true "1"; mkCC x8e true false true "2"]).
Definition dev120 := ("001a_5342_0000", mkDevice "Cooper Wiring Devices" "RF9500" "Battery Switch" "001A" "5342" "0000" [mkCC x00 false false true "1"; mkCC x20 false false true "1"; mkCC x72 false false true "1"; mkCC x77 false false true "1"; mkCC x85 false false true "1"; mkCC x86 false false true "1"]).
Definition dev121 := ("001a_534c_0000", mkDevice "Cooper Wiring Devices" "RF9501" "15A Light Switch" "001A" "534C" "0000" [mkCC x00 false false true "1"; mkCC x20 false false true "1"; mkCC x25 false false true "1"; mkCC x27 false false true "1"; mkCC x2b false false true "1"; mkCC x70 false false true "1"; mkCC x71 false false true "1"; mkCC x72 false false true "1"; mkCC x77 false false true "1"; mkCC x82 false false true "1"; mkCC x85 false false true "1"; mkCC x86 false false true "1"; mkCC x87 false false true "1"]).
Definition dev122 := ("001a_5352_0000", mkDevice "Cooper Wiring Devices" "RF9517" "Accessory Switch" "001A" "5352" "0000" [mkCC x00 false false true "1"; mkCC x20 true false true "1"; mkCC x25 false false true "1"; mkCC x27 false false true "1"; mkCC x2b false false true "1"; mkCC x70 false false true "1"; mkCC x72 false false true "1"; mkCC x77 false false true "1"; mkCC x85 false false true "1"; mkCC x86 false false true "1"; mkCC x87 false false true "1"]).
Definition dev123 := ("001a_4449_0002", mkDevice "Cooper Wiring Devices" "RF9534WS" "Smart Dimmer" "001A" "4449" "0002" [mkCC x00 false false true "1"; mkCC x20 false false true "1"; mkCC x26 true false true "2"; mkCC x27 true false true "1"; mkCC x2b true false true "1"; mkCC x2c true false true "1"; mkCC x70 true false true "1"; mkCC x71 true false true "1"; mkCC x72 true false true "1"; mkCC x73 true false true "1"; mkCC x75 true false true "1"; mkCC x77 true false true "1"; mkCC x82 true false true "1"; mkCC x85 true false true "1"; mkCC x86 true false true "1"; mkCC x87 true false true "1"]).
Definition dev124 := ("001a_4449_0101", mkDevice "Cooper Wiring Devices" "RF9540-N" "All Load Dimmer Light Switch" "001A" "4449" "0101" [mkCC x00 false false true "1"; mkCC x20 false false true "1"; mkCC x26 true false true "2"; mkCC x27 true false true "1"; mkCC x2b true false true "1"; mkCC x2c true false true "0"; mkCC x70 true false true "1"; mkCC x71 true false true "1"; mkCC x72 true false true "1"; mkCC x73 true false true "1"; mkCC x75 true false true "1"; mkCC x77 true false true "1"; mkCC x82 true false true "1"; mkCC x85 true false true "1"; mkCC x86 true false true "1"; mkCC x87 true false true "1"]).
Definition dev125 := ("001a_4441_0000", mkDevice "Cooper Wiring Devices" "RF9542" "Dimmer Accessory Switch" "001A" "4441" "0000" [mkCC x00 false false true "1"; mkCC x20 false false true "1"; mkCC x26 true false true "2"; mkCC x27 true false true "1"; mkCC x2b true false true "1"; mkCC x2c true false true "0"; mkCC x70 true false true "1"; mkCC x71 true false true "1"; mkCC x72 true false true "1"; mkCC x73 true false true "1"; mkCC x75 true false true "1"; mkCC x77 true false true "1"; mkCC x85 true false true "1"; mkCC x86 true false true "1"; mkCC x87 true false true "1"]).
Definition dev126 := ("001a_5244_0000", mkDevice "Cooper Wiring Devices" "RFTR9505" "Duplex receptical" "001A" "5244" "0000" [mkCC x00 false false true "1"; mkCC x20 false false true "1"; mkCC x25 false false true "1"; mkCC x27 false false true "1"; mkCC x2b false false true "1"; mkCC x70 false false true "1"; mkCC x71 false false true "1"; mkCC x72 false false true "1"; mkCC x77 false false true "1"; mkCC x82 false false true "1"; mkCC x85 false false true "1"; mkCC x86 false false true "1"; mkCC x87 false false true "1"]).
Definition dev127 := ("001a_574d_0000", mkDevice "Cooper Wiring Devices" "RFWC5" "5-Scene Keypad" "001A" "574D" "0000" [mkCC x00 false false true "1"; mkCC x20 false false true "1"; mkCC x21 true false true "0"; mkCC x22 true false true "1"; mkCC x2b false false true "0"; mkCC x2d true false true "0"; mkCC x70 true false true "1"; mkCC x72 true false true "1"; mkCC x77 true false true "1"; mkCC x85 true false true "1"; mkCC x86 true false true "1"; mkCC x87 true false true "1"]).
Definition dev128 := ("0248_0003_0001", mkDevice "Coqon" "PSMZ0001" "Plug module" "0248" "0003" "0001" [mkCC x20 false false true "1"; mkCC x25 false false true "1"; mkCC x32 false false true "2"; mkCC x59 false false true "1"; mkCC x5a false false true "1"; mkCC x5e false false true "1"; mkCC x70 false false true "1"; mkCC x72 false false true "1"; mkCC x73 false false true "1"; mkCC x7a false false true "1"; mkCC x85 false false true "1"; mkCC x86 false false true "1"]).
Definition dev129 := ("0002_0115_a010", mkDevice "Danfoss" "010101" "Popp Wireless Thermostatic Valve TRV" "0002" "0115" "A010" [mkCC x00 false false true "1"; mkCC x20 false false true "1"; mkCC x31 true false true "6"; mkCC x43 true false true "1"; mkCC x46 true false true "1"; mkCC x72 true false true "1"; mkCC x75 true false true "2"; mkCC x80 true false true "1"; mkCC x81 true false true "1"; mkCC x84 true false true "2"; mkCC x86 true false true "1"; mkCC x8f true false true "1"]).
Definition dev130 := ("0002_0003_8010", mkDevice "Danfoss" "014G0160" "Z-Wave room sensor" "0002" "0003" "8010" [mkCC x00 false false true "1"; mkCC x20 false false true "1"; mkCC x31 false false true "5"; mkCC x43 false false true "2"; mkCC x70 false false true "1"; mkCC x72 false false true "1"; mkCC x80 false false true "1"; mkCC x84 false false true "2"; mkCC x86 false false true "1"; mkCC x87 false false true "1"; mkCC x8f false false true "1"]).
Definition dev131 := ("0002_0248_a020", mkDevice "Danfoss" "DTHERMZ5" "Z-Wave room sensor" "0002" "0248" "A020" [mkCC x00 false false true "1"; mkCC x20 true false true "1"; mkCC x31 true false true "6"; mkCC x43 true false true "1"; mkCC x53 true false true "1"; mkCC x5b true false true "1"; mkCC x70 true false true "1"; mkCC x72 true false true "1"; mkCC x75 true false true "2"; mkCC x80 true false true "1"; mkCC x84 true false true "2"; mkCC x86 true false true "2"; mkCC x87 true false true "1"; mkCC x8f true false true "1"]).
Definition dev132 := ("0002_0248_a010", mkDevice "Danfoss" "DTHERMZ6" "Living Connect Z Thermostat" "0002" "0248" "A010" [mkCC x00 false false true "1"; mkCC x20 false false true "1"; mkCC x31 true false true "6"; mkCC x43 true false true "1"; mkCC x46 true false true "1"; mkCC x72 true false true "1"; mkCC x75 true false true "2"; mkCC x80 true false true "1"; mkCC x81 true false true "1"; mkCC x84 true false true "2"; mkCC x86 true false true "1"; mkCC x8f true false true "1"]).
Definition dev133 := ("0002_0005_0004", mkDevice "Danfoss" "LC-13" "Living Connect Z Thermostat" "0002" "0005" "0004" [mkCC x00 false false true "1"; mkCC x20 false false true "1"; mkCC x43 false false true "2"; mkCC x72 false false true "1"; mkCC x75 true false true "0"; mkCC x80 false false true "1"; mkCC x81 false false true "0"; mkCC x84 false false true "2"; mkCC x86 false false true "1"; mkCC x8f false false true "1"; mkCC x9c false false true "0"]).
Definition dev134 := ("0002_8005_0001", mkDevice "Danfoss" "LC-13" "Living Connect Z Thermostat" "0002" "8005" "0001" [mkCC x00 false false true "1"; mkCC x20 false false true "1"; mkCC x43 false false true "2"; mkCC x72 false false true "1"; mkCC x75 true false true "0"; mkCC x80 false false true "1"; mkCC x81 false false true "0"; mkCC x84 false false true "2"; mkCC x86 false false true "1"; mkCC x8f false false true "1"; mkCC x9c false false true "0"]).
Definition dev135 := ("0002_8005_0002", mkDevice "Danfoss" "LC-13" "Living Connect Z Thermostat" "0002" "8005" "0002" [mkCC x00 false false true "1"; mkCC x20 false false true "1"; mkCC x43 false false true "2"; mkCC x72 false false true "1"; mkCC x75 true false true "0"; mkCC x80 false false true "1"; mkCC x81 false false true "0"; mkCC x84 false false true "2"; mkCC x86 false false true "1"; mkCC x8f false false true "1"; mkCC x9c false false true "0"]).
Definition dev136 := ("0002_0005_0003", mkDevice "Danfoss" "LCZ251" "Living Connect Z Thermostat 2.51" "0002" "0005" "0003" [mkCC x00 false false true "1"; mkCC x20 false false true "1"; mkCC x43 false false true "2"; mkCC x72 false false true "1"; mkCC x80 false false true "1"; mkCC x84 false false true "2"; mkCC x86 false false true "1"; mkCC x8f false false true "1"]).
Definition dev137 := ("0002_0005_0175", mkDevice "Danfoss" "MT02650" "Devolo Thermostat (09356)" "0002" "0005" "0175" [mkCC x00 true false true "1"; mkCC x20 true false true "1"; mkCC x31 true false true "5"; mkCC x43 true false true "2"; mkCC x56 true false true "0"; mkCC x72 true false true "1"; mkCC x75 true false true "2"; mkCC x80 true false true "1"; mkCC x84 true false true "2"; mkCC x86 true false true "1"; mkCC x8f true false true "1"]).
Definition dev138 := ("0175_0001_0011", mkDevice "Devolo" "MT02646" "Home Control Metering Plug" "0175" "0001" "0011" [mkCC x00 false false true "1"; mkCC x20 true false true "1"; mkCC x25 true false true "1"; mkCC x27 true false true "1"; mkCC x32 true false true "3"; mkCC x59 true false true "1"; mkCC x5a true false true "1"; mkCC x5e true false true "2"; mkCC x70 true false true "1"; mkCC x71 true false true "1"; mkCC x72 true false true "2"; mkCC x73 true false true "1"; mkCC x75 true false true "2"; mkCC x7a true false true "2"; mkCC x85 true false true "2"; mkCC x86 true false true "2"; mkCC x98 true false true "1"]).
Definition dev139 := ("0175_0002_000d", mkDevice "Devolo" "MT02647" "Devolo Motion Sensor" "0175" "0002" "000D" [mkCC x00 false false true "1"; mkCC x20 false false true "1"; mkCC x30 false false true "2"; mkCC x31 false false true "5"; mkCC x62 false false true "1"; mkCC x63 false false true "1"; mkCC x70 false false true "1"; mkCC x71 false false true "1"; mkCC x72 false true true "1"; mkCC x75 false false true "1"; mkCC x76 false false true "1"; mkCC x80 false false true "1"; mkCC x84 false false true "2"; mkCC x85 false false true "1"; mkCC x86 false false true "1"; mkCC x8f false false true "1"; mkCC x98 false false true "1"]).
Definition dev140 := ("0175_0002_000e", mkDevice "Devolo" "MT02648" "Door/Window Contact" "0175" "0002" "000E" [mkCC x00 false false true "1"; mkCC x20 false false true "1"; mkCC x30 true false true "2"; mkCC x31 true false true "5"; mkCC x59 true false true "0"; mkCC x5a true false true "1"; mkCC x5e true false true "1"; mkCC x70 true false true "1"; mkCC x71 true false true "3"; mkCC x72 true false true "1"; mkCC x73 true false true "1"; mkCC x7a true false true "0"; mkCC x80 true false true "1"; mkCC x84 true false true "2"; mkCC x85 true false true "1"; mkCC x86 true false true "1"; mkCC x8f true false true "1"; mkCC x98 true false true "0"]).
Definition dev141 := ("0175_0100_0101", mkDevice "Devolo" "MT2652" "Scene Switch" "0175" "0100" "0101" [mkCC x00 false false true "1"; mkCC x20 false false true "1"; mkCC x2d true false true "1"; mkCC x59 true false true "1"; mkCC x5a true false true "1"; mkCC x5b true false true "1"; mkCC x5e true false true "1"; mkCC x70 true false true "1"; mkCC x72 true false true "1"; mkCC x73 true false true "1"; mkCC x80 true false true "1"; mkCC x84 true false true "2"; mkCC x85 true false true "1"; mkCC x86 true false true "2"; mkCC x8e true false true "1"; mkCC x8f true false true "1"]).
Definition dev142 := ("0175_0100_0102", mkDevice "Devolo" "MT2653" "Keyfob" "0175" "0100" "0102" [mkCC x00 false false true "1"; mkCC x20 false false true "1"; mkCC x2d true false true "0"; mkCC x59 true false true "0"; mkCC x5a true false true "1"; mkCC x5b true false true "1"; mkCC x5e true false true "1"; mkCC x70 true false true "1"; mkCC x72 true false true "1"; mkCC x73 true false true "1"; mkCC x80 true false true "1"; mkCC x84 true false true "2"; mkCC x85 true false true "1"; mkCC x86 true false true "1"; mkCC x8e true false true "0"; mkCC x8f true false true "1"]).
Definition dev143 := ("0175_0002_0020", mkDevice "Devolo" "MT02755" "Humidity Sensor" "0175" "0002" "0020" [mkCC x00 false false true "1"; mkCC x20 false false true "1"; mkCC x30 true false true "2"; mkCC x31 true false true "5"; mkCC x59 true false true "1"; mkCC x5a true false true "1"; mkCC x5e true false true "1"; mkCC x70 true false true "1"; mkCC x71 true false true "4"; mkCC x72 true false true "1"; mkCC x73 true false true "1"; mkCC x7a true false true "1"; mkCC x80 true false true "1"; mkCC x84 true false true "2"; mkCC x85 true false true "2"; mkCC x86 true false true "2"; mkCC x8f true false true "1"; mkCC x98 true false true "0"]).
Definition dev144 := ("0175_0002_0021", mkDevice "Devolo" "MT2756" "Devolo MT2756 Flood Sensor" "0175" "0002" "0021" [mkCC x00 false false true "1"; mkCC x20 false false true "1"; mkCC x30 false false true "0"; mkCC x59 true false true "1"; mkCC x5a true false true "1"; mkCC x5e true false true "1"; mkCC x72 true false true "1"; mkCC x73 true false true "1"; mkCC x7a true false true "1"; mkCC x85 false false true "0"; mkCC x86 true false true "2"; mkCC x8f true false true "1"; mkCC x98 true false true "0"]).
Definition dev145 := ("0175_0001_0001", mkDevice "Devolo" "PAN11" "Smart Energy Plug-in Switch" "0175" "0001" "0001" [mkCC x00 false false true "1"; mkCC x20 true false true "1"; mkCC x25 true false true "1"; mkCC x27 true false true "1"; mkCC x32 true false true "3"; mkCC x70 true false true "1"; mkCC x72 true false true "1"; mkCC x85 true false true "1"; mkCC x86 true false true "1"]).
Definition dev146 := ("0175_0004_000a", mkDevice "Devolo" "ph-pse02" "Multisound indoor siren (Zipato/Devolo)" "0175" "0004" "000A" [mkCC x00 false false true "1"; mkCC x20 false false true "1"; mkCC x25 false false true "1"; mkCC x26 false false false "0"; mkCC x30 false false true "2"; mkCC x59 false false true "1"; mkCC x5a false false true "1"; mkCC x5e false false true "1"; mkCC x70 false false true "1"; mkCC x71 false false true "4"; mkCC x72 false false true "1"; mkCC x73 false false true "1"; mkCC x7a false false true "1"; mkCC x85 false false true "2"; mkCC x86 false false true "2"]).
Definition dev147 := ("0175_0002_0018", mkDevice "Devolo" "PST02-1B" "Multisensor" "0175" "0002" "0018" [mkCC x00 false false true "1"; mkCC x20 false false true "1"; mkCC x30 true false true "2"; mkCC x31 true false true "5"; mkCC x70 false false true "1"; mkCC x72 false false true "1"; mkCC x80 false false true "1"; mkCC x84 false false true "2"; mkCC x85 false false true "2"; mkCC x86 false false true "1"]).
Definition dev148 := ("0108_0002_000e", mkDevice "D-Link" "DCH-Z110" "Door & Window Sensor" "0108" "0002" "000E" [mkCC x00 false false true "1"; mkCC x20 false false true "1"; mkCC x30 true false true "2"; mkCC x31 true false true "5"; mkCC x59 true false true "0"; mkCC x5a true false true "1"; mkCC x5e true false true "1"; mkCC x70 true false true "1"; mkCC x71 true false true "4"; mkCC x72 true false true "1"; mkCC x73 true false true "1"; mkCC x7a true false true "0"; mkCC x80 true false true "1"; mkCC x84 true false true "2"; mkCC x85 true false true "1"; mkCC x86 true false true "1"; mkCC x8f true false true "1"; mkCC x98 true false true "0"]).
Definition dev149 := ("0108_0002_000d", mkDevice "D-Link" "DCH-Z120" "Battery Motion Sensor" "0108" "0002" "000D" [mkCC x00 false false true "1"; mkCC x20 false false true "1"; mkCC x30 true false true "2"; mkCC x31 true false true "5"; mkCC x70 true false true "1"; mkCC x71 true false true "4"; mkCC x72 false false true "1"; mkCC x80 true false true "1"; mkCC x84 true false true "2"; mkCC x85 true false true "1"; mkCC x86 true false true "1"; mkCC x8f true false true "1"]).
Definition dev150 := ("0108_0004_000a", mkDevice "D-Link" "DCH-Z510" "Siren" "0108" "0004" "000A" [mkCC x00 false false true "1"; mkCC x20 false false true "1"; mkCC x25 false false true "1"; mkCC x59 true false true "1"; mkCC x5a true false true "1"; mkCC x5e true false true "1"; mkCC x70 false false true "0"; mkCC x71 false false false "3"; mkCC x72 true false true "1"; mkCC x73 true false true "1"; mkCC x7a true false true "2"; mkCC x86 true false true "1"; mkCC x98 true false true "0"]).
Definition dev151 := ("020e_4c42_3135", mkDevice "Domitech Products, LLC" "ZB22" "Smart LED Light Bulb" "020E" "4C42" "3135" [mkCC x00 false false true "1"; mkCC x20 false false true "1"; mkCC x22 false false true "0"; mkCC x26 true false true "1"; mkCC x27 true false true "1"; mkCC x59 true false true "1"; mkCC x5a true false true "0"; mkCC x5e true false true "1"; mkCC x70 true false true "1"; mkCC x72 true false true "1"; mkCC x73 true false true "1"; mkCC x7a true false true "0"; mkCC x85 true false true "1"; mkCC x86 true false true "1"]).
Definition dev152 := ("020e_4754_3038", mkDevice "Domitech Products, LLC" "DTA19" "Smart LED Light" "020E" "4754" "3038" [mkCC x00 false false true "1"; mkCC x20 false false true "1"; mkCC x26 false false true "1"; mkCC x27 false false true "0"; mkCC x70 false false true "1"; mkCC x72 false false true "1"; mkCC x85 false false true "1"; mkCC x86 false false true "1"]).
Definition dev153 := ("020e_4c42_3134", mkDevice "Domitech Products, LLC" "DTA19" "Smart LED Light" "020E" "4C42" "3134" [mkCC x00 false false true "1"; mkCC x20 false false true "1"; mkCC x26 false false true "1"; mkCC x27 false false true "0"; mkCC x70 false false true "1"; mkCC x72 false false true "1"; mkCC x85 false false true "1"; mkCC x86 false false true "1"]).
Definition dev154 := ("0184_4447_3031", mkDevice "Dragon Tech Industrial, Ltd." "PA-100" "Plug-in On/Off Switch" "0184" "4447" "3031" [mkCC x00 false false true "1"; mkCC x20 false false true "1"; mkCC x25 true false true "1"; mkCC x27 true false true "1"; mkCC x59 true false true "1"; mkCC x5a true false true "1"; mkCC x5e true false true "1"; mkCC x70 true false true "1"; mkCC x72 true false true "1"; mkCC x73 true false true "1"; mkCC x7a true false true "1"; mkCC x85 true false true "2"; mkCC x86 true false true "2"]).
Definition dev155 := ("0184_4447_3034", mkDevice "Dragon Tech Industrial, Ltd." "WD-100" "Wall Dimmer Switch" "0184" "4447" "3034" [mkCC x00 false false true "1"; mkCC x20 false false true "1"; mkCC x26 true false true "1"; mkCC x27 true false true "1"; mkCC x59 true false true "1"; mkCC x5a true false true "1"; mkCC x5b false false true "1"; mkCC x5e true false true "1"; mkCC x70 true false true "1"; mkCC x72 true false true "1"; mkCC x73 true false true "1"; mkCC x7a true false true "1"; mkCC x85 true false true "1"; mkCC x86 true false true "1"]).
Definition dev156 := ("0184_4744_3032", mkDevice "Dragon Tech Industrial, Ltd." "WD-100" "Wall Dimmer Switch" "0184" "4744" "3032" [mkCC x00 false false true "1"; mkCC x20 false false true "1"; mkCC x26 true false true "1"; mkCC x27 true false true "1"; mkCC x59 true false true "1"; mkCC x5a true false true "1"; mkCC x5b false false true "1"; mkCC x5e true false true "1"; mkCC x70 true false true "1"; mkCC x72 true false true "1"; mkCC x73 true false true "1"; mkCC x7a true false true "1"; mkCC x85 true false true "1"; mkCC x86 true false true "1"]).
Definition dev157 := ("0184_4447_3033", mkDevice "Dragon Tech Industrial, Ltd." "WS-100" "Wall On/Off Switch" "0184" "4447" "3033" [mkCC x00 false false true "1"; mkCC x20 false false true "1"; mkCC x25 true false true "1"; mkCC x27 true false true "1"; mkCC x59 true false true "0"; mkCC x5a true false true "1"; mkCC x5b false false true "1"; mkCC x5e true false true "1"; mkCC x70 true false true "1"; mkCC x72 true false true "1"; mkCC x73 true false true "1"; mkCC x7a true false true "0"; mkCC x85 true false true "1"; mkCC x86 true false true "1"]).
Definition dev158 := ("014a_0001_0002", mkDevice "Ecolink" "DWZWAVE2" "Z-Wave Door/Window Sensor" "014A" "0001" "0002" [mkCC x00 false false true "1"; mkCC x20 false false true "1"; mkCC x30 false false true "1"; mkCC x70 false false true "1"; mkCC x71 false false true "2"; mkCC x72 false false true "2"; mkCC x80 false false true "1"; mkCC x84 false false true "2"; mkCC x85 false false true "2"; mkCC x86 false false true "2"]).
Definition dev159 := ("014a_0004_0002", mkDevice "Ecolink" "DWZWAVE2" "Z-Wave Door/Window Sensor" "014A" "0004" "0002" [mkCC x00 false false true "1"; mkCC x20 false false true "1"; mkCC x30 false false true "1"; mkCC x70 false false true "1"; mkCC x71 false false true "2"; mkCC x72 false false true "2"; mkCC x80 false false true "1"; mkCC x84 false false true "2"; mkCC x85 false false true "2"; mkCC x86 false false true "2"]).
Definition dev160 := ("014a_0004_0001", mkDevice "Ecolink" "Ecolink PIR v2.5" "Z-Wave PIR Motion Sensor v2.5" "014A" "0004" "0001" [mkCC x00 false false true "1"; mkCC x20 false false true "1"; mkCC x30 false false true "2"; mkCC x59 false false true "1"; mkCC x5a false false true "0"; mkCC x5e false false true "1"; mkCC x70 false false true "1"; mkCC x71 false false true "5"; mkCC x72 false false true "1"; mkCC x73 false false true "1"; mkCC x80 false false true "1"; mkCC x84 false false true "2"; mkCC x85 false false true "2"; mkCC x86 false false true "2"]).
Definition dev161 := ("014a_0001_0001", mkDevice "Ecolink" "Ecolink PIR" "Z-Wave PIR Motion Sensor" "014A" "0001" "0001" [mkCC x00 false false true "1"; mkCC x20 false false true "1"; mkCC x30 false false true "1"; mkCC x70 false false true "1"; mkCC x71 false false true "1"; mkCC x72 false false true "1"; mkCC x80 false false true "1"; mkCC x84 false false true "2"; mkCC x85 false false true "1"; mkCC x86 false false true "1"]).
Definition dev162 := ("014a_0004_0003", mkDevice "Ecolink" "TILT-ZWAVE2.5-ECO" "Z-wave Plus Gold Plated Reliability Garage Door Tilt Sensor" "014A" "0004" "0003" [mkCC x00 false false true "1"; mkCC x20 false false true "1"; mkCC x30 true false true "2"; mkCC x59 true false true "1"; mkCC x5a false false true "0"; mkCC x5e true false true "1"; mkCC x70 true false true "1"; mkCC x71 true false true "5"; mkCC x72 true false true "1"; mkCC x73 true false true "1"; mkCC x80 true false true "1"; mkCC x84 true false true "2"; mkCC x85 true false true "2"; mkCC x86 true false true "2"]).
Definition dev163 := ("014a_0001_0003", mkDevice "Ecolink" "TILTZWAVE2" "Z-Wave Garage Door Sensor" "014A" "0001" "0003" [mkCC x00 false false true "1"; mkCC x20 false false true "1"; mkCC x30 false false true "1"; mkCC x70 false false true "1"; mkCC x71 false false true "1"; mkCC x72 false false true "1"; mkCC x80 false false true "1"; mkCC x84 false false true "2"; mkCC x85 false false true "1"; mkCC x86 false false true "1"]).
Definition dev164 := ("0157_0003_0512", mkDevice "EcoNet Controls" "EBV-105" "Wireless Water Shutoff Valve" "0157" "0003" "0512" [mkCC x00 false false true "1"; mkCC x20 false false true "1"; mkCC x25 false false true "1"; mkCC x27 false false true "1"; mkCC x72 false false true "1"; mkCC x85 false false true "1"; mkCC x86 false false true "1"]).
Definition dev165 := ("0157_0100_0100", mkDevice "EcoNet Controls" "EV100" "Z-Vent ZWave Controlled HVAC Air Register" "0157" "0100" "0100" [mkCC x00 false false true "1"; mkCC x20 true false true "1"; mkCC x26 true false true "3"; mkCC x72 true false true "1"; mkCC x77 true false true "0"; mkCC x80 true false true "0"; mkCC x86 true false true "1"]).
Definition dev166 := ("0157_0003_0002", mkDevice "EcoNet Controls" "GR-105N" "Z-Wave Motor for water/gas ball valves" "0157" "0003" "0002" [mkCC x00 false false true "1"; mkCC x20 true false true "1"; mkCC x25 true false true "1"; mkCC x27 true false true "1"; mkCC x59 true false true "1"; mkCC x5a false false true "0"; mkCC x5e true false true "1"; mkCC x70 true false true "0"; mkCC x72 true false true "1"; mkCC x73 true false true "1"; mkCC x85 true false true "2"; mkCC x86 true false true "2"]).
Definition dev167 := ("021f_0003_0088", mkDevice "Elexa Consumer Products Inc." "DMS01" "Dome Wireless Siren" "021F" "0003" "0088" [mkCC x00 false false true "1"; mkCC x20 false false true "1"; mkCC x25 true false true "1"; mkCC x59 true false true "1"; mkCC x5a true false true "1"; mkCC x5e true false true "1"; mkCC x70 true false true "1"; mkCC x71 true false true "6"; mkCC x72 true false true "1"; mkCC x73 true false true "1"; mkCC x80 true false true "1"; mkCC x85 true false true "2"; mkCC x86 true false true "2"; mkCC x87 true false true "1"]).
Definition dev168 := ("011a_0101_0102", mkDevice "Wenzhou MTLC Electric Appliances Co.,Ltd." "Enerwave ZW15S" "Enerwave ZW15S Binary Switch" "011A" "0101" "0102" [mkCC x00 false false true "1"; mkCC x20 false false true "1"; mkCC x25 true false true "1"; mkCC x27 true false true "1"; mkCC x70 true false true "1"; mkCC x72 true false true "1"; mkCC x85 true false true "1"; mkCC x86 true false true "1"]).
Definition dev169 := ("011a_0101_0103", mkDevice "Wenzhou MTLC Electric Appliances Co.,Ltd." "ZW15R " "Duplex receptacle" "011A" "0101" "0103" [mkCC x00 false false true "1"; mkCC x20 false false true "1"; mkCC x25 false false true "1"; mkCC x27 false false true "1"; mkCC x70 false false true "1"; mkCC x72 false false true "1"; mkCC x85 false false true "1"; mkCC x86 false false true "1"]).
Definition dev170 := ("011a_0101_0603", mkDevice "Wenzhou MTLC Electric Appliances Co.,Ltd." "ZW20R" "20A Tamper Resistant Duplex Receptacle" "011A" "0101" "0603" [mkCC x00 false false true "1"; mkCC x20 false false true "1"; mkCC x25 false false true "1"; mkCC x27 false false true "1"; mkCC x70 false false true "1"; mkCC x72 false false true "1"; mkCC x86 false false true "1"]).
Definition dev171 := ("011a_0111_0101", mkDevice "Wenzhou MTLC Electric Appliances Co.,Ltd." "ZW20RM" "In-wall Smart Meter  Duplex Receptacle" "011A" "0111" "0101" [mkCC x00 false false true "1"; mkCC x20 false false true "1"; mkCC x26 true false true "1"; mkCC x27 true false true "1"; mkCC x31 true false true "2"; mkCC x32 true false true "2"; mkCC x70 true false true "1"; mkCC x72 true false true "1"; mkCC x85 true false true "1"; mkCC x86 true false true "1"]).
Definition dev172 := ("011a_0102_0201", mkDevice "Wenzhou MTLC Electric Appliances Co.,Ltd." "ZW500D" "Dimmer" "011A" "0102" "0201" [mkCC x00 false false true "1"; mkCC x20 false false true "1"; mkCC x26 false false true "2"; mkCC x27 false false true "1"; mkCC x70 false false true "1"; mkCC x72 false false true "1"; mkCC x85 false false true "1"; mkCC x86 false false true "1"]).
Definition dev173 := ("011a_0111_0201", mkDevice "Wenzhou MTLC Electric Appliances Co.,Ltd." "ZW500DM" "In-wall Smart Meter Dimmer Switch" "011A" "0111" "0201" [mkCC x00 false false true "1"; mkCC x20 false false true "1"; mkCC x25 true false true "1"; mkCC x27 true false true "1"; mkCC x31 true false true "2"; mkCC x32 true false true "2"; mkCC x70 true false true "1"; mkCC x72 true false true "1"; mkCC x85 true false true "1"; mkCC x86 true false true "1"]).
Definition dev174 := ("011a_0111_0605", mkDevice "Wenzhou MTLC Electric Appliances Co.,Ltd." "ZWM-RSM1" "Smart Single Relay Switch Module" "011A" "0111" "0605" [mkCC x00 false false true "1"; mkCC x20 true false true "1"; mkCC x25 true false true "1"; mkCC x27 true false true "1"; mkCC x59 true false true "1"; mkCC x5a true false true "1"; mkCC x5e true false true "1"; mkCC x72 true false true "1"; mkCC x73 true false true "1"; mkCC x85 true false true "2"; mkCC x86 true false true "2"]).
Definition dev175 := ("011a_0101_0104", mkDevice "Wenzhou MTLC Electric Appliances Co.,Ltd." "ZWN-333" "Plug-in Appliance Module" "011A" "0101" "0104" [mkCC x00 false false true "1"; mkCC x20 false false true "1"; mkCC x25 true false true "1"; mkCC x27 true false true "1"; mkCC x72 true false true "1"; mkCC x86 true false true "1"]).
Definition dev176 := ("011a_0601_0901", mkDevice "Wenzhou MTLC Electric Appliances Co.,Ltd." "ZWN-BPC" "PIR Sensor" "011A" "0601" "0901" [mkCC x00 false false true "1"; mkCC x20 false false true "1"; mkCC x30 false false true "1"; mkCC x70 false false true "1"; mkCC x72 false false true "1"; mkCC x80 false false true "1"; mkCC x84 false false true "2"; mkCC x85 false false true "1"; mkCC x86 false false true "1"]).
Definition dev177 := ("011a_0101_5605", mkDevice "Wenzhou MTLC Electric Appliances Co.,Ltd." "ZWN-RSM1-PLUS" "Smart Relay Switch Module" "011A" "0101" "5605" [mkCC x00 false false true "1"; mkCC x20 true false true "1"; mkCC x25 true false true "1"; mkCC x27 true false true "1"; mkCC x70 true false true "1"; mkCC x72 true false true "1"; mkCC x85 true false true "2"; mkCC x86 true false true "2"]).
Definition dev178 := ("011a_0101_5606", mkDevice "Wenzhou MTLC Electric Appliances Co.,Ltd." "ZWN-RSM2" "Smart Dual Relay Switch Module" "011A" "0101" "5606" [mkCC x00 false false true "1"; mkCC x20 true false true "1"; mkCC x25 true false true "1"; mkCC x27 true false true "1"; mkCC x60 true false true "2"; mkCC x70 true false true "1"; mkCC x72 true false true "1"; mkCC x85 true false true "2"; mkCC x86 true false true "2"; mkCC x8e true false true "2"]).
Definition dev179 := ("011a_0801_0b03", mkDevice "Wenzhou MTLC Electric Appliances Co.,Ltd." "ZWN-SC7" "Scene Controller" "011A" "0801" "0B03" [mkCC x00 false false true "1"; mkCC x20 false false true "1"; mkCC x2b false false false "1"; mkCC x72 false false true "1"; mkCC x85 false false true "1"; mkCC x86 false false true "1"]).
Definition dev180 := ("0148_0002_0001", mkDevice "Eurotronics" "CometZ" "Thermostatic Valve" "0148" "0002" "0001" [mkCC x00 false false true "1"; mkCC x20 true false true "1"; mkCC x26 true false true "3"; mkCC x31 true false true "4"; mkCC x40 true false true "1"; mkCC x43 true false true "1"; mkCC x72 true false true "1"; mkCC x77 true false true "1"; mkCC x80 true false true "1"; mkCC x84 true false true "2"; mkCC x86 true false true "1"]).
Definition dev181 := ("0148_0001_0001", mkDevice "Eurotronics" "StellaZ" "Thermostatic Valve" "0148" "0001" "0001" [mkCC x00 false false true "1"; mkCC x20 false false true "1"; mkCC x26 false false true "3"; mkCC x30 false false true "0"; mkCC x31 false false true "4"; mkCC x40 false false true "2"; mkCC x43 false false true "2"; mkCC x72 false false true "1"; mkCC x80 false false true "1"; mkCC x84 false false true "2"; mkCC x86 false false true "1"]).
Definition dev182 := ("0135_000b_0001", mkDevice "Everspring (135)" "ST812" "Flood sensor" "0135" "000B" "0001" [mkCC x00 false false true "1"; mkCC x20 true false true "1"; mkCC x70 true false true "1"; mkCC x72 true false true "1"; mkCC x80 true false true "1"; mkCC x84 true false true "2"; mkCC x85 true false true "1"; mkCC x86 true false true "1"; mkCC x9c true false true "1"]).
Definition dev183 := ("0060_0003_0001", mkDevice "Everspring" "AD130" "Dimmer Plugin" "0060" "0003" "0001" [mkCC x00 false false true "1"; mkCC x20 false false true "1"; mkCC x26 true false true "1"; mkCC x27 true false true "1"; mkCC x72 true false true "1"; mkCC x73 true false true "1"; mkCC x75 true false true "1"; mkCC x86 true false true "1"]).
Definition dev184 := ("0060_0003_0002", mkDevice "Everspring" "AD146" "In-Wall Dimmer Module" "0060" "0003" "0002" [mkCC x00 false false true "1"; mkCC x20 true false true "1"; mkCC x26 true false true "1"; mkCC x27 true false true "1"; mkCC x59 true false true "1"; mkCC x5a true false true "1"; mkCC x5e true false true "1"; mkCC x70 true false true "1"; mkCC x71 true false true "3"; mkCC x72 true false true "1"; mkCC x73 true false true "1"; mkCC x7a true false true "1"; mkCC x85 true false true "1"; mkCC x86 true false true "2"]).
Definition dev185 := ("0060_0003_0003", mkDevice "Everspring" "AD147" "Z-Wave Dimmer Plug" "0060" "0003" "0003" [mkCC x00 false false true "1"; mkCC x20 false false true "1"; mkCC x26 false false true "1"; mkCC x27 false false true "1"; mkCC x70 false false true "1"; mkCC x71 false false true "1"; mkCC x72 false false true "1"; mkCC x85 false false true "1"; mkCC x86 false false true "1"]).
Definition dev186 := ("0060_0004_0001", mkDevice "Everspring" "AN157" "Switch Plugin" "0060" "0004" "0001" [mkCC x20 false false true "1"; mkCC x25 true false true "1"; mkCC x27 true false true "1"; mkCC x72 true false true "1"; mkCC x73 true false true "1"; mkCC x75 true false true "1"; mkCC x86 true false true "1"]).
Definition dev187 := ("0060_0104_0001", mkDevice "Everspring" "AN157" "Switch Plugin" "0060" "0104" "0001" [mkCC x20 false false true "1"; mkCC x25 true false true "1"; mkCC x27 true false true "1"; mkCC x72 true false true "1"; mkCC x73 true false true "1"; mkCC x75 true false true "1"; mkCC x86 true false true "1"]).
Definition dev188 := ("0060_0004_0002", mkDevice "Everspring" "AN158" "Switch Meter Plugin" "0060" "0004" "0002" [mkCC x00 false false true "1"; mkCC x20 false false true "1"; mkCC x25 false false true "1"; mkCC x27 false false true "1"; mkCC x32 false false true "2"; mkCC x70 false false true "1"; mkCC x71 false false true "1"; mkCC x72 false false true "1"; mkCC x85 false false true "1"; mkCC x86 false false true "1"]).
Definition dev189 := ("0060_0004_0005", mkDevice "Everspring" "AN163" "Metering Power Switch" "0060" "0004" "0005" [mkCC x00 false false true "1"; mkCC x20 true false true "1"; mkCC x25 true false true "1"; mkCC x27 true false true "1"; mkCC x32 true false true "2"; mkCC x70 true false true "1"; mkCC x71 true false true "1"; mkCC x72 true false true "1"; mkCC x85 true false true "2"; mkCC x86 true false true "1"]).
Definition dev190 := ("0060_0004_0008", mkDevice "Everspring" "AN179" "In-Wall Switch Module" "0060" "0004" "0008" [mkCC x00 false false true "1"; mkCC x20 true false true "1"; mkCC x25 true false true "1"; mkCC x27 true false true "1"; mkCC x59 true false true "1"; mkCC x5a true false true "1"; mkCC x5e true false true "1"; mkCC x70 true false true "1"; mkCC x71 true false true "3"; mkCC x72 true false true "1"; mkCC x73 true false true "1"; mkCC x7a true false true "1"; mkCC x85 true false true "1"; mkCC x86 true false true "2"]).
Definition dev191 := ("0060_0011_0002", mkDevice "Everspring" "AN179" "In-Wall Switch Module" "0060" "0011" "0002" [mkCC x00 false false true "1"; mkCC x20 true false true "1"; mkCC x25 true false true "1"; mkCC x27 true false true "1"; mkCC x59 true false true "1"; mkCC x5a true false true "1"; mkCC x5e true false true "1"; mkCC x70 true false true "1"; mkCC x71 true false true "3"; mkCC x72 true false true "1"; mkCC x73 true false true "1"; mkCC x7a true false true "1"; mkCC x85 true false true "1"; mkCC x86 true false true "2"]).
Definition dev192 := ("0060_0004_0007", mkDevice "Everspring" " AN1802" "Switch without metering" "0060" "0004" "0007" [mkCC x00 false false true "1"; mkCC x20 true false true "1"; mkCC x25 true false true "1"; mkCC x27 true false true "1"; mkCC x59 true false true "1"; mkCC x5a true false true "1"; mkCC x5e true false true "1"; mkCC x70 true false true "1"; mkCC x71 true false true "4"; mkCC x72 true false true "1"; mkCC x73 true false true "1"; mkCC x7a true false true "1"; mkCC x85 true false true "2"; mkCC x86 true false true "2"]).
Definition dev193 := ("0060_0004_0006", mkDevice "Everspring" "AN181" "Mini Plug Switch with Metering (Gen5)" "0060" "0004" "0006" [mkCC x00 false false true "1"; mkCC x20 true false true "1"; mkCC x22 true false true "1"; mkCC x25 true false true "1"; mkCC x27 true false true "1"; mkCC x32 true false true "3"; mkCC x59 true false true "0"; mkCC x5a true false true "1"; mkCC x5e true false true "1"; mkCC x70 true false true "1"; mkCC x71 true false true "3"; mkCC x72 true false true "1"; mkCC x73 true false true "1"; mkCC x7a true false true "0"; mkCC x85 true false true "1"; mkCC x86 true false true "1"]).
Definition dev194 := ("0060_0010_0001", mkDevice "Everspring" "HAC01" "In-Wall Remote Insert" "0060" "0010" "0001" [mkCC x00 false false true "1"; mkCC x20 false false true "1"; mkCC x22 false false true "0"; mkCC x25 false false true "1"; mkCC x70 false false true "1"; mkCC x72 false false true "1"; mkCC x85 false false true "1"; mkCC x86 false false true "1"]).
Definition dev195 := ("0060_0202_0001", mkDevice "Everspring" "HSM02" "Door/Window Contact" "0060" "0202" "0001" [mkCC x00 false false true "1"; mkCC x20 false false true "1"; mkCC x30 false false true "1"; mkCC x70 false false true "1"; mkCC x71 false false true "1"; mkCC x72 false false true "1"; mkCC x80 false false true "1"; mkCC x84 false false true "2"; mkCC x85 false false true "1"; mkCC x86 false false true "1"]).
Definition dev196 := ("0060_0002_0002", mkDevice "Everspring" "HSM02" "Door/Window Contact" "0060" "0002" "0002" [mkCC x00 false false true "1"; mkCC x20 false false true "1"; mkCC x30 false false true "1"; mkCC x70 false false true "1"; mkCC x71 false false true "1"; mkCC x72 false false true "1"; mkCC x80 false false true "1"; mkCC x84 false false true "2"; mkCC x85 false false true "1"; mkCC x86 false false true "1"]).
Definition dev197 := ("0060_0001_0003", mkDevice "Everspring" "HSP02" "Motion Detector" "0060" "0001" "0003" [mkCC x00 false false true "1"; mkCC x20 true false true "1"; mkCC x30 true false true "1"; mkCC x70 true false true "1"; mkCC x71 true false true "1"; mkCC x72 true false true "1"; mkCC x80 true false true "1"; mkCC x84 true false true "2"; mkCC x85 true false true "2"; mkCC x86 true false true "1"]).
Definition dev198 := ("0060_000c_0001", mkDevice "Everspring" "SE812" "Siren" "0060" "000C" "0001" [mkCC x00 false false true "1"; mkCC x20 false false true "1"; mkCC x25 true false true "1"; mkCC x71 false false true "1"; mkCC x72 true false true "1"; mkCC x80 true false true "1"; mkCC x85 true false true "1"; mkCC x86 true false true "1"]).
Definition dev199 := ("0060_000d_0001", mkDevice "Everspring" "SF812" "Smoke Sensor" "0060" "000D" "0001" [mkCC x00 false false true "1"; mkCC x20 false false true "1"; mkCC x71 false false true "1"; mkCC x72 false false true "1"; mkCC x80 false false true "1"; mkCC x85 false false true "1"; mkCC x86 false false true "1"; mkCC x9c false false true "1"]).
Definition dev200 := ("0060_0002_0001", mkDevice "Everspring" "SM103" "Door/Window Contact" "0060" "0002" "0001" [mkCC x00 false false true "1"; mkCC x20 true false true "1"; mkCC x30 true false true "1"; mkCC x70 true false true "1"; mkCC x71 true false true "1"; mkCC x72 true false true "1"; mkCC x80 true false true "1"; mkCC x84 true false true "1"; mkCC x85 true false true "1"; mkCC x86 true false true "1"]).
Definition dev201 := ("0060_0101_0001", mkDevice "Everspring" "SP103" "Motion Detector" "0060" "0101" "0001" [mkCC x00 false false true "1"; mkCC x20 false false true "1"; mkCC x30 true false true "1"; mkCC x70 true false true "1"; mkCC x71 true false true "1"; mkCC x72 true false true "1"; mkCC x80 true false true "1"; mkCC x84 true false true "1"; mkCC x85 true false true "1"; mkCC x86 true false true "1"]).
Definition dev202 := ("0060_0001_0002", mkDevice "Everspring" "SP814" "Motion Detector" "0060" "0001" "0002" [mkCC x00 false false true "1"; mkCC x20 true false true "1"; mkCC x30 true false true "1"; mkCC x70 true false true "1"; mkCC x72 true false true "1"; mkCC x80 true false true "1"; mkCC x84 true false true "2"; mkCC x85 true false true "1"; mkCC x86 true false true "1"]).
Definition dev203 := ("0060_000b_0001", mkDevice "Everspring" "ST812" "Flood Sensor" "0060" "000B" "0001" [mkCC x00 false false true "1"; mkCC x20 false false true "1"; mkCC x70 false false true "1"; mkCC x71 false false true "1"; mkCC x72 false false true "1"; mkCC x80 false false true "1"; mkCC x84 false false true "2"; mkCC x85 false false true "1"; mkCC x86 false false true "1"; mkCC x9c false false true "1"]).
Definition dev204 := ("0060_0006_0001", mkDevice "Everspring" "ST814" "Temperature and Humidity Sensor" "0060" "0006" "0001" [mkCC x00 false false true "1"; mkCC x20 false false true "1"; mkCC x31 false false true "2"; mkCC x60 false false true "2"; mkCC x70 false false true "1"; mkCC x71 false false true "1"; mkCC x72 false false true "1"; mkCC x80 false false true "1"; mkCC x84 false false true "2"; mkCC x85 false false true "1"; mkCC x86 false false true "1"]).
Definition dev205 := ("0060_0007_0001", mkDevice "Everspring" "ST815" "Illumination Sensor" "0060" "0007" "0001" []).
Definition dev206 := ("0113_4450_3030", mkDevice "Evolve" "LDM-15W" "Lamp Module" "0113" "4450" "3030" [mkCC x00 false false true "1"; mkCC x20 false false true "1"; mkCC x26 true false true "1"; mkCC x27 true false true "1"; mkCC x2b true false true "1"; mkCC x2c true false true "1"; mkCC x70 true false true "1"; mkCC x72 true false true "1"; mkCC x73 true false true "1"; mkCC x86 true false true "1"]).
Definition dev207 := ("0113_5246_3133", mkDevice "Evolve" "LFM-20" "" "0113" "5246" "3133" [mkCC x00 false false true "1"; mkCC x20 false false true "1"; mkCC x25 false false true "1"; mkCC x27 false false true "1"; mkCC x2b false false true "1"; mkCC x70 false false true "1"; mkCC x72 false false true "1"; mkCC x86 false false true "1"]).
Definition dev208 := ("0113_5250_3030", mkDevice "Evolve" "LPM-15" "Appliance module" "0113" "5250" "3030" [mkCC x00 false false true "1"; mkCC x20 false false true "1"; mkCC x25 true false true "1"; mkCC x27 true false true "1"; mkCC x2b true false true "1"; mkCC x2c true false true "1"; mkCC x70 true false true "1"; mkCC x72 true false true "1"; mkCC x73 true false true "1"; mkCC x75 true false true "1"; mkCC x86 true false true "1"]).
Definition dev209 := ("0113_4457_3034", mkDevice "Evolve" "LRM-AS" "Wall Mounted Dimmer" "0113" "4457" "3034" [mkCC x00 false false true "1"; mkCC x20 false false true "1"; mkCC x22 false false true "0"; mkCC x25 false false true "0"; mkCC x26 false false true "1"; mkCC x27 false false true "1"; mkCC x2b false false true "1"; mkCC x30 false false true "0"; mkCC x32 false false true "0"; mkCC x70 false false true "1"; mkCC x71 false false true "0"; mkCC x72 false false true "1"; mkCC x80 false false true "0"; mkCC x86 false false true "1"]).
Definition dev210 := ("0113_5257_3533", mkDevice "Evolve" "LSM-15" "Wall Mounted Switch" "0113" "5257" "3533" [mkCC x00 false false true "1"; mkCC x20 false false true "1"; mkCC x25 false false true "1"; mkCC x26 false false true "0"; mkCC x27 false false true "1"; mkCC x2b false false true "1"; mkCC x60 false false true "0"; mkCC x70 false false true "1"; mkCC x72 false false true "1"; mkCC x86 false false true "1"]).
Definition dev211 := ("0113_4556_5434", mkDevice "Evolve" "T100" "Thermostat" "0113" "4556" "5434" [mkCC x00 false false true "1"; mkCC x20 true false true "1"; mkCC x2b true false true "1"; mkCC x2c true false true "1"; mkCC x31 true false true "1"; mkCC x40 true false true "1"; mkCC x42 true false true "1"; mkCC x43 true false true "1"; mkCC x44 true false true "1"; mkCC x45 true false true "1"; mkCC x70 true false true "1"; mkCC x72 true false true "1"; mkCC x73 true false true "1"; mkCC x81 true false true "1"; mkCC x85 true false true "1"; mkCC x86 true false true "1"]).
Definition dev212 := ("0085_0002_0002", mkDevice "Fakro" "ARZ" "Roller Shutter Module" "0085" "0002" "0002" [mkCC x00 false false true "1"; mkCC x20 false false true "1"; mkCC x25 true false true "1"; mkCC x26 true false true "3"; mkCC x27 true false true "1"; mkCC x72 true false true "1"; mkCC x73 true false true "1"; mkCC x86 true false true "1"]).
Definition dev213 := ("0085_0002_0001", mkDevice "Fakro" "ZWS12" "Chain Actuator" "0085" "0002" "0001" [mkCC x00 false false true "1"; mkCC x20 false false true "1"; mkCC x25 true false true "1"; mkCC x26 true false true "3"; mkCC x27 true false true "1"; mkCC x70 true false true "1"; mkCC x72 true false true "1"; mkCC x73 true false true "1"; mkCC x75 true false true "1"; mkCC x85 true false true "1"; mkCC x86 true false true "1"]).
Definition dev214 := ("0085_0003_0001", mkDevice "Fakro" "ZWS12" "Chain Actuator" "0085" "0003" "0001" [mkCC x00 false false true "1"; mkCC x20 false false true "1"; mkCC x25 true false true "1"; mkCC x26 true false true "3"; mkCC x27 true false true "1"; mkCC x70 true false true "1"; mkCC x72 true false true "1"; mkCC x73 true false true "1"; mkCC x75 true false true "1"; mkCC x85 true false true "1"; mkCC x86 true false true "1"]).
Definition dev215 := ("010f_0501_0102", mkDevice "Fibargroup" "FGBS001" "Universal Binary Sensor" "010F" "0501" "0102" [mkCC x20 false false true "1"; mkCC x2b false false true "0"; mkCC x30 false false true "1"; mkCC x60 false false true "2"; mkCC x70 false false true "1"; mkCC x85 false false true "1"; mkCC x86 false false true "1"]).
Definition dev216 := ("010f_0501_1002", mkDevice "Fibargroup" "FGBS001" "Universal Binary Sensor" "010F" "0501" "1002" [mkCC x20 false false true "1"; mkCC x2b false false true "0"; mkCC x30 false false true "1"; mkCC x60 false false true "2"; mkCC x70 false false true "1"; mkCC x85 false false true "1"; mkCC x86 false false true "1"]).
Definition dev217 := ("010f_0501_2002", mkDevice "Fibargroup" "FGBS001" "Universal Binary Sensor" "010F" "0501" "2002" [mkCC x20 false false true "1"; mkCC x2b false false true "0"; mkCC x30 false false true "1"; mkCC x60 false false true "2"; mkCC x70 false false true "1"; mkCC x85 false false true "1"; mkCC x86 false false true "1"]).
Definition dev218 := ("010f_0501_3002", mkDevice "Fibargroup" "FGBS001" "Universal Binary Sensor" "010F" "0501" "3002" [mkCC x20 false false true "1"; mkCC x2b false false true "0"; mkCC x30 false false true "1"; mkCC x60 false false true "2"; mkCC x70 false false true "1"; mkCC x85 false false true "1"; mkCC x86 false false true "1"]).
Definition dev219 := ("010f_0d01_1000", mkDevice "Fibargroup" "FGGC001" "Fibaro Swipe Scene Controller" "010F" "0D01" "1000" [mkCC x00 false false true "1"; mkCC x20 false false true "1"; mkCC x56 true false true "1"; mkCC x59 true false true "0"; mkCC x5a true false true "1"; mkCC x5b true false true "2"; mkCC x5e true false true "1"; mkCC x70 true false true "1"; mkCC x72 true false true "1"; mkCC x73 true false true "1"; mkCC x7a true false true "0"; mkCC x80 true false true "1"; mkCC x84 true false true "2"; mkCC x85 true false true "1"; mkCC x86 true false true "1"; mkCC x8e true false true "0"; mkCC x98 true false true "0"]).
Definition dev220 := ("010f_0d01_3000", mkDevice "Fibargroup" "FGGC001" "Fibaro Swipe Scene Controller" "010F" "0D01" "3000" [mkCC x00 false false true "1"; mkCC x20 false false true "1"; mkCC x56 true false true "1"; mkCC x59 true false true "0"; mkCC x5a true false true "1"; mkCC x5b true false true "2"; mkCC x5e true false true "1"; mkCC x70 true false true "1"; mkCC x72 true false true "1"; mkCC x73 true false true "1"; mkCC x7a true false true "0"; mkCC x80 true false true "1"; mkCC x84 true false true "2"; mkCC x85 true false true "1"; mkCC x86 true false true "1"; mkCC x8e true false true "0"; mkCC x98 true false true "0"]).
Definition dev221 := ("010f_0100_0104", mkDevice "Fibargroup" "FGD211" "Universal Dimmer 500W" "010F" "0100" "0104" [mkCC x00 false false true "1"; mkCC x20 false false true "1"; mkCC x26 true false true "1"; mkCC x27 true false true "0"; mkCC x70 true false true "1"; mkCC x72 true false true "1"; mkCC x73 true false true "0"; mkCC x85 true false true "1"; mkCC x86 true false true "1"; mkCC x8e true false true "0"]).
Definition dev222 := ("010f_0100_0106", mkDevice "Fibargroup" "FGD211" "Universal Dimmer 500W" "010F" "0100" "0106" [mkCC x00 false false true "1"; mkCC x20 false false true "1"; mkCC x26 true false true "1"; mkCC x27 true false true "0"; mkCC x70 true false true "1"; mkCC x72 true false true "1"; mkCC x73 true false true "0"; mkCC x85 true false true "1"; mkCC x86 true false true "1"; mkCC x8e true false true "0"]).
Definition dev223 := ("010f_0100_0107", mkDevice "Fibargroup" "FGD211" "Universal Dimmer 500W" "010F" "0100" "0107" [mkCC x00 false false true "1"; mkCC x20 false false true "1"; mkCC x26 true false true "1"; mkCC x27 true false true "0"; mkCC x70 true false true "1"; mkCC x72 true false true "1"; mkCC x73 true false true "0"; mkCC x85 true false true "1"; mkCC x86 true false true "1"; mkCC x8e true false true "0"]).
Definition dev224 := ("010f_0100_0109", mkDevice "Fibargroup" "FGD211" "Universal Dimmer 500W" "010F" "0100" "0109" [mkCC x00 false false true "1"; mkCC x20 false false true "1"; mkCC x26 true false true "1"; mkCC x27 true false true "0"; mkCC x70 true false true "1"; mkCC x72 true false true "1"; mkCC x73 true false true "0"; mkCC x85 true false true "1"; mkCC x86 true false true "1"; mkCC x8e true false true "0"]).
Definition dev225 := ("010f_0100_100a", mkDevice "Fibargroup" "FGD211" "Universal Dimmer 500W" "010F" "0100" "100A" [mkCC x00 false false true "1"; mkCC x20 false false true "1"; mkCC x26 true false true "1"; mkCC x27 true false true "0"; mkCC x70 true false true "1"; mkCC x72 true false true "1"; mkCC x73 true false true "0"; mkCC x85 true false true "1"; mkCC x86 true false true "1"; mkCC x8e true false true "0"]).
Definition dev226 := ("010f_0100_300a", mkDevice "Fibargroup" "FGD211" "Universal Dimmer 500W" "010F" "0100" "300A" [mkCC x00 false false true "1"; mkCC x20 false false true "1"; mkCC x26 true false true "1"; mkCC x27 true false true "0"; mkCC x70 true false true "1"; mkCC x72 true false true "1"; mkCC x73 true false true "0"; mkCC x85 true false true "1"; mkCC x86 true false true "1"; mkCC x8e true false true "0"]).
Definition dev227 := ("010f_0102_1000", mkDevice "Fibargroup" "FGD212" "Dimmer 2" "010F" "0102" "1000" [mkCC x00 false false true "1"; mkCC x20 false false true "1"; mkCC x22 false false true "1"; mkCC x26 false false true "3"; mkCC x27 false false true "1"; mkCC x2b false false true "0"; mkCC x31 false false true "4"; mkCC x32 false false true "3"; mkCC x56 false false true "1"; mkCC x59 true false false "0"; mkCC x60 false false true "2"; mkCC x70 false false true "1"; mkCC x71 false false true "1"; mkCC x72 false false true "1"; mkCC x85 false false true "1"; mkCC x86 false false true "1"]).
Definition dev228 := ("010f_0102_2000", mkDevice "Fibargroup" "FGD212" "Dimmer 2" "010F" "0102" "2000" [mkCC x00 false false true "1"; mkCC x20 false false true "1"; mkCC x22 false false true "1"; mkCC x26 false false true "3"; mkCC x27 false false true "1"; mkCC x2b false false true "0"; mkCC x31 false false true "4"; mkCC x32 false false true "3"; mkCC x56 false false true "1"; mkCC x59 true false false "0"; mkCC x60 false false true "2"; mkCC x70 false false true "1"; mkCC x71 false false true "1"; mkCC x72 false false true "1"; mkCC x85 false false true "1"; mkCC x86 false false true "1"]).
Definition dev229 := ("010f_0102_3000", mkDevice "Fibargroup" "FGD212" "Dimmer 2" "010F" "0102" "3000" [mkCC x00 false false true "1"; mkCC x20 false false true "1"; mkCC x22 false false true "1"; mkCC x26 false false true "3"; mkCC x27 false false true "1"; mkCC x2b false false true "0"; mkCC x31 false false true "4"; mkCC x32 false false true "3"; mkCC x56 false false true "1"; mkCC x59 true false false "0"; mkCC x60 false false true "2"; mkCC x70 false false true "1"; mkCC x71 false false true "1"; mkCC x72 false false true "1"; mkCC x85 false false true "1"; mkCC x86 false false true "1"]).
Definition dev230 := ("010f_0102_4000", mkDevice "Fibargroup" "FGD212" "Dimmer 2" "010F" "0102" "4000" [mkCC x00 false false true "1"; mkCC x20 false false true "1"; mkCC x22 false false true "1"; mkCC x26 false false true "3"; mkCC x27 false false true "1"; mkCC x2b false false true "0"; mkCC x31 false false true "4"; mkCC x32 false false true "3"; mkCC x56 false false true "1"; mkCC x59 true false false "0"; mkCC x60 false false true "2"; mkCC x70 false false true "1"; mkCC x71 false false true "1"; mkCC x72 false false true "1"; mkCC x85 false false true "1"; mkCC x86 false false true "1"]).
Definition dev231 := ("010f_0b00_1001", mkDevice "Fibargroup" "FGFS101" "Flood Sensor" "010F" "0B00" "1001" [mkCC x00 false false true "1"; mkCC x20 false false true "1"; mkCC x30 false false true "1"; mkCC x60 false false true "2"; mkCC x70 false false true "1"; mkCC x72 false false true "1"; mkCC x80 false false true "1"; mkCC x85 false false true "1"; mkCC x86 false false true "1"; mkCC x9c false false true "1"]).
Definition dev232 := ("010f_0b00_2001", mkDevice "Fibargroup" "FGFS101" "Flood Sensor" "010F" "0B00" "2001" [mkCC x00 false false true "1"; mkCC x20 false false true "1"; mkCC x30 false false true "1"; mkCC x60 false false true "2"; mkCC x70 false false true "1"; mkCC x72 false false true "1"; mkCC x80 false false true "1"; mkCC x85 false false true "1"; mkCC x86 false false true "1"; mkCC x9c false false true "1"]).
Definition dev233 := ("010f_0b00_3001", mkDevice "Fibargroup" "FGFS101" "Flood Sensor" "010F" "0B00" "3001" [mkCC x00 false false true "1"; mkCC x20 false false true "1"; mkCC x30 false false true "1"; mkCC x60 false false true "2"; mkCC x70 false false true "1"; mkCC x72 false false true "1"; mkCC x80 false false true "1"; mkCC x85 false false true "1"; mkCC x86 false false true "1"; mkCC x9c false false true "1"]).
Definition dev234 := ("010f_0b01_1002", mkDevice "Fibargroup" "FGFS101" "Flood Sensor" "010F" "0B01" "1002" [mkCC x00 false false true "1"; mkCC x20 true false true "1"; mkCC x22 true false true "1"; mkCC x30 false false true "0"; mkCC x31 true false true "5"; mkCC x56 true false true "1"; mkCC x59 true false true "1"; mkCC x5a true false true "1"; mkCC x5e true false true "1"; mkCC x70 true false true "1"; mkCC x71 true false true "3"; mkCC x72 true false true "1"; mkCC x73 true false true "1"; mkCC x7a true false true "1"; mkCC x80 true false true "1"; mkCC x84 true false true "2"; mkCC x85 true false true "1"; mkCC x86 true false true "1"; mkCC x8e true false true "0"; mkCC x98 true false true "1"; mkCC x9c true false true "1"]).
Definition dev235 := ("010f_0b01_2002", mkDevice "Fibargroup" "FGFS101" "Flood Sensor" "010F" "0B01" "2002" [mkCC x00 false false true "1"; mkCC x20 true false true "1"; mkCC x22 true false true "1"; mkCC x30 false false true "0"; mkCC x31 true false true "5"; mkCC x56 true false true "1"; mkCC x59 true false true "1"; mkCC x5a true false true "1"; mkCC x5e true false true "1"; mkCC x70 true false true "1"; mkCC x71 true false true "3"; mkCC x72 true false true "1"; mkCC x73 true false true "1"; mkCC x7a true false true "1"; mkCC x80 true false true "1"; mkCC x84 true false true "2"; mkCC x85 true false true "1"; mkCC x86 true false true "1"; mkCC x8e true false true "0"; mkCC x98 true false true "1"; mkCC x9c true false true "1"]).
Definition dev236 := ("010f_0700_1000", mkDevice "Fibargroup" "FGK101" "Door Opening Sensor" "010F" "0700" "1000" [mkCC x00 false false true "1"; mkCC x20 false false true "1"; mkCC x30 false false true "1"; mkCC x70 false false true "1"; mkCC x72 false false true "1"; mkCC x80 false false true "1"; mkCC x84 false false true "1"; mkCC x85 false false true "1"; mkCC x86 false false true "1"; mkCC x9c false false true "1"]).
Definition dev237 := ("010f_0700_2000", mkDevice "Fibargroup" "FGK101" "Door Opening Sensor" "010F" "0700" "2000" [mkCC x00 false false true "1"; mkCC x20 false false true "1"; mkCC x30 false false true "1"; mkCC x70 false false true "1"; mkCC x72 false false true "1"; mkCC x80 false false true "1"; mkCC x84 false false true "1"; mkCC x85 false false true "1"; mkCC x86 false false true "1"; mkCC x9c false false true "1"]).
Definition dev238 := ("010f_0700_3000", mkDevice "Fibargroup" "FGK101" "Door Opening Sensor" "010F" "0700" "3000" [mkCC x00 false false true "1"; mkCC x20 false false true "1"; mkCC x30 false false true "1"; mkCC x70 false false true "1"; mkCC x72 false false true "1"; mkCC x80 false false true "1"; mkCC x84 false false true "1"; mkCC x85 false false true "1"; mkCC x86 false false true "1"; mkCC x9c false false true "1"]).
Definition dev239 := ("010f_0701_1001", mkDevice "Fibargroup" "FGK101" "Door Opening Sensor" "010F" "0701" "1001" [mkCC x00 false false true "1"; mkCC x20 false false true "1"; mkCC x22 false false true "1"; mkCC x2b false false true "1"; mkCC x30 false false true "1"; mkCC x31 true false false "5"; mkCC x56 false false true "1"; mkCC x70 false false true "1"; mkCC x71 false false true "1"; mkCC x72 false false true "1"; mkCC x80 false false true "1"; mkCC x84 false false true "2"; mkCC x85 false false true "1"; mkCC x86 false false true "1"; mkCC x9c false false true "1"]).
Definition dev240 := ("010f_0701_3001", mkDevice "Fibargroup" "FGK101" "Door Opening Sensor" "010F" "0701" "3001" [mkCC x00 false false true "1"; mkCC x20 false false true "1"; mkCC x22 false false true "1"; mkCC x2b false false true "1"; mkCC x30 false false true "1"; mkCC x31 true false false "5"; mkCC x56 false false true "1"; mkCC x70 false false true "1"; mkCC x71 false false true "1"; mkCC x72 false false true "1"; mkCC x80 false false true "1"; mkCC x84 false false true "2"; mkCC x85 false false true "1"; mkCC x86 false false true "1"; mkCC x9c false false true "1"]).
Definition dev241 := ("010f_1001_1000", mkDevice "Fibargroup" "FGKF601" "Keyfob" "010F" "1001" "1000" [mkCC x00 false false true "1"; mkCC x20 false false true "1"; mkCC x22 false false true "1"; mkCC x56 false false true "1"; mkCC x59 false false true "1"; mkCC x5a false false true "1"; mkCC x5b false false true "3"; mkCC x5e false false true "1"; mkCC x70 false false true "1"; mkCC x72 false false true "1"; mkCC x73 false false true "1"; mkCC x75 false false true "2"; mkCC x7a false false true "1"; mkCC x80 false false true "1"; mkCC x84 false false true "2"; mkCC x85 false false true "2"; mkCC x86 false false true "2"; mkCC x8e false false true "3"]).
Definition dev242 := ("010f_0800_1001", mkDevice "Fibargroup" "FGMS001" "Motion Sensor" "010F" "0800" "1001" [mkCC x00 false false true "1"; mkCC x20 false false true "1"; mkCC x30 true false true "1"; mkCC x31 true false true "5"; mkCC x56 true false true "1"; mkCC x70 true false true "1"; mkCC x72 true false true "1"; mkCC x80 true false true "1"; mkCC x84 true false true "1"; mkCC x85 true false true "1"; mkCC x86 true false true "1"; mkCC x8e true false true "0"; mkCC x8f true false true "1"; mkCC x9c true false true "1"]).
Definition dev243 := ("010f_0800_2001", mkDevice "Fibargroup" "FGMS001" "Motion Sensor" "010F" "0800" "2001" [mkCC x00 false false true "1"; mkCC x20 false false true "1"; mkCC x30 true false true "1"; mkCC x31 true false true "5"; mkCC x56 true false true "1"; mkCC x70 true false true "1"; mkCC x72 true false true "1"; mkCC x80 true false true "1"; mkCC x84 true false true "1"; mkCC x85 true false true "1"; mkCC x86 true false true "1"; mkCC x8e true false true "0"; mkCC x8f true false true "1"; mkCC x9c true false true "1"]).
Definition dev244 := ("010f_0800_3001", mkDevice "Fibargroup" "FGMS001" "Motion Sensor" "010F" "0800" "3001" [mkCC x00 false false true "1"; mkCC x20 false false true "1"; mkCC x30 true false true "1"; mkCC x31 true false true "5"; mkCC x56 true false true "1"; mkCC x70 true false true "1"; mkCC x72 true false true "1"; mkCC x80 true false true "1"; mkCC x84 true false true "1"; mkCC x85 true false true "1"; mkCC x86 true false true "1"; mkCC x8e true false true "0"; mkCC x8f true false true "1"; mkCC x9c true false true "1"]).
Definition dev245 := ("010f_0801_1001", mkDevice "Fibargroup" "FGMS001" "Motion Sensor" "010F" "0801" "1001" [mkCC x00 false false true "1"; mkCC x20 false false true "1"; mkCC x30 true false true "1"; mkCC x31 true false true "5"; mkCC x56 true false true "1"; mkCC x70 true false true "1"; mkCC x72 true false true "1"; mkCC x80 true false true "1"; mkCC x84 true false true "1"; mkCC x85 true false true "1"; mkCC x86 true false true "1"; mkCC x8e true false true "0"; mkCC x8f true false true "1"; mkCC x9c true false true "1"]).
Definition dev246 := ("010f_0801_2001", mkDevice "Fibargroup" "FGMS001" "Motion Sensor" "010F" "0801" "2001" [mkCC x00 false false true "1"; mkCC x20 false false true "1"; mkCC x30 true false true "1"; mkCC x31 true false true "5"; mkCC x56 true false true "1"; mkCC x70 true false true "1"; mkCC x72 true false true "1"; mkCC x80 true false true "1"; mkCC x84 true false true "1"; mkCC x85 true false true "1"; mkCC x86 true false true "1"; mkCC x8e true false true "0"; mkCC x8f true false true "1"; mkCC x9c true false true "1"]).
Definition dev247 := ("010f_0801_3001", mkDevice "Fibargroup" "FGMS001" "Motion Sensor" "010F" "0801" "3001" [mkCC x00 false false true "1"; mkCC x20 true false true "1"; mkCC x22 true false true "1"; mkCC x30 true false true "1"; mkCC x31 true false true "7"; mkCC x56 true false true "1"; mkCC x59 true false true "1"; mkCC x5a true false true "1"; mkCC x5e true false true "1"; mkCC x70 true false true "1"; mkCC x71 true false true "3"; mkCC x72 true false true "1"; mkCC x73 true false true "1"; mkCC x7a true false true "1"; mkCC x80 true false true "1"; mkCC x84 true false true "2"; mkCC x85 true false true "1"; mkCC x86 true false true "1"; mkCC x8e true false true "0"; mkCC x98 true false true "0"; mkCC x9c true false true "1"]).
Definition dev248 := ("010f_8800_3001", mkDevice "Fibargroup" "FGMS001" "Motion Sensor" "010F" "8800" "3001" [mkCC x00 false false true "1"; mkCC x20 true false true "1"; mkCC x22 true false true "1"; mkCC x30 true false true "1"; mkCC x31 true false true "7"; mkCC x56 true false true "1"; mkCC x59 true false true "1"; mkCC x5a true false true "1"; mkCC x5e true false true "1"; mkCC x70 true false true "1"; mkCC x71 true false true "3"; mkCC x72 true false true "1"; mkCC x73 true false true "1"; mkCC x7a true false true "1"; mkCC x80 true false true "1"; mkCC x84 true false true "2"; mkCC x85 true false true "1"; mkCC x86 true false true "1"; mkCC x8e true false true "0"; mkCC x98 true false true "0"; mkCC x9c true false true "1"]).
Definition dev249 := ("010f_0f01_1000", mkDevice "Fibargroup" "FGPB101" "A real push button (switch) available in several colors." "010F" "0F01" "1000" [mkCC x00 false false true "1"; mkCC x20 false false true "1"; mkCC x56 false false true "1"; mkCC x5b false false true "1"; mkCC x70 false false true "1"; mkCC x71 false false true "1"; mkCC x72 false false true "1"; mkCC x80 false false true "1"; mkCC x84 false false true "2"; mkCC x85 false false true "1"; mkCC x86 false false true "1"]).
Definition dev250 := ("010f_0f01_2000", mkDevice "Fibargroup" "FGPB101" "A real push button (switch) available in several colors." "010F" "0F01" "2000" [mkCC x00 false false true "1"; mkCC x20 false false true "1"; mkCC x56 false false true "1"; mkCC x5b false false true "1"; mkCC x70 false false true "1"; mkCC x71 false false true "1"; mkCC x72 false false true "1"; mkCC x80 false false true "1"; mkCC x84 false false true "2"; mkCC x85 false false true "1"; mkCC x86 false false true "1"]).
Definition dev251 := ("010f_0f01_3000", mkDevice "Fibargroup" "FGPB101" "A real push button (switch) available in several colors." "010F" "0F01" "3000" [mkCC x00 false false true "1"; mkCC x20 false false true "1"; mkCC x56 false false true "1"; mkCC x5b false false true "1"; mkCC x70 false false true "1"; mkCC x71 false false true "1"; mkCC x72 false false true "1"; mkCC x80 false false true "1"; mkCC x84 false false true "2"; mkCC x85 false false true "1"; mkCC x86 false false true "1"]).
Definition dev252 := ("010f_fb10_1014", mkDevice "Fibargroup" "FGPB101" "A real push button (switch) available in several colors." "010F" "FB10" "1014" [mkCC x00 false false true "1"; mkCC x20 false false true "1"; mkCC x56 false false true "1"; mkCC x5b false false true "1"; mkCC x70 false false true "1"; mkCC x71 false false true "1"; mkCC x72 false false true "1"; mkCC x80 false false true "1"; mkCC x84 false false true "2"; mkCC x85 false false true "1"; mkCC x86 false false true "1"]).
Definition dev253 := ("010f_0300_0104", mkDevice "Fibargroup" "FGR221" "Roller Shutter Controller" "010F" "0300" "0104" [mkCC x00 false false true "1"; mkCC x20 false false true "1"; mkCC x25 true false true "1"; mkCC x26 true false true "3"; mkCC x27 true false true "1"; mkCC x50 true false true "1"; mkCC x70 true false true "1"; mkCC x72 true false true "1"; mkCC x73 true false true "1"; mkCC x85 true false true "1"; mkCC x86 true false true "1"; mkCC x8e true false true "0"]).
Definition dev254 := ("010f_0300_0106", mkDevice "Fibargroup" "FGR221" "Roller Shutter Controller" "010F" "0300" "0106" [mkCC x00 false false true "1"; mkCC x20 false false true "1"; mkCC x25 true false true "1"; mkCC x26 true false true "3"; mkCC x27 true false true "1"; mkCC x50 true false true "1"; mkCC x70 true false true "1"; mkCC x72 true false true "1"; mkCC x73 true false true "1"; mkCC x85 true false true "1"; mkCC x86 true false true "1"; mkCC x8e true false true "0"]).
Definition dev255 := ("010f_0300_0107", mkDevice "Fibargroup" "FGR221" "Roller Shutter Controller" "010F" "0300" "0107" [mkCC x00 false false true "1"; mkCC x20 false false true "1"; mkCC x25 true false true "1"; mkCC x26 true false true "3"; mkCC x27 true false true "1"; mkCC x50 true false true "1"; mkCC x70 true false true "1"; mkCC x72 true false true "1"; mkCC x73 true false true "1"; mkCC x85 true false true "1"; mkCC x86 true false true "1"; mkCC x8e true false true "0"]).
Definition dev256 := ("010f_0300_100a", mkDevice "Fibargroup" "FGR221" "Roller Shutter Controller" "010F" "0300" "100A" [mkCC x00 false false true "1"; mkCC x20 false false true "1"; mkCC x25 true false true "1"; mkCC x26 true false true "3"; mkCC x27 true false true "1"; mkCC x50 true false true "1"; mkCC x70 true false true "1"; mkCC x72 true false true "1"; mkCC x73 true false true "1"; mkCC x85 true false true "1"; mkCC x86 true false true "1"; mkCC x8e true false true "0"]).
Definition dev257 := ("010f_0300_0109", mkDevice "Fibargroup" "FGR221" "Roller Shutter Controller" "010F" "0300" "0109" [mkCC x00 false false true "1"; mkCC x20 false false true "1"; mkCC x25 true false true "1"; mkCC x26 true false true "3"; mkCC x27 true false true "1"; mkCC x50 true false true "1"; mkCC x70 true false true "1"; mkCC x72 true false true "1"; mkCC x73 true false true "1"; mkCC x85 true false true "1"; mkCC x86 true false true "1"; mkCC x8e true false true "0"]).
Definition dev258 := ("010f_0900_1000", mkDevice "Fibargroup" "FGRGBW" "RGBW Controller" "010F" "0900" "1000" [mkCC x00 false false true "1"; mkCC x20 false false true "1"; mkCC x26 false false true "1"; mkCC x27 false false true "1"; mkCC x31 false false true "2"; mkCC x32 false false true "2"; mkCC x33 true false true "1"; mkCC x60 false false true "2"; mkCC x70 false false true "1"; mkCC x72 false false true "1"; mkCC x85 false false true "1"; mkCC x86 false false true "1"]).
Definition dev259 := ("010f_0900_2000", mkDevice "Fibargroup" "FGRGBW" "RGBW Controller" "010F" "0900" "2000" [mkCC x00 false false true "1"; mkCC x20 false false true "1"; mkCC x26 false false true "1"; mkCC x27 false false true "1"; mkCC x31 false false true "2"; mkCC x32 false false true "2"; mkCC x33 true false true "1"; mkCC x60 false false true "2"; mkCC x70 false false true "1"; mkCC x72 false false true "1"; mkCC x85 false false true "1"; mkCC x86 false false true "1"]).
Definition dev260 := ("010f_0900_3000", mkDevice "Fibargroup" "FGRGBW" "RGBW Controller" "010F" "0900" "3000" [mkCC x00 false false true "1"; mkCC x20 false false true "1"; mkCC x26 false false true "1"; mkCC x27 false false true "1"; mkCC x31 false false true "2"; mkCC x32 false false true "2"; mkCC x33 true false true "1"; mkCC x60 false false true "2"; mkCC x70 false false true "1"; mkCC x72 false false true "1"; mkCC x85 false false true "1"; mkCC x86 false false true "1"]).
Definition dev261 := ("010f_0900_4000", mkDevice "Fibargroup" "FGRGBW" "RGBW Controller" "010F" "0900" "4000" [mkCC x00 false false true "1"; mkCC x20 false false true "1"; mkCC x26 false false true "1"; mkCC x27 false false true "1"; mkCC x31 false false true "2"; mkCC x32 false false true "2"; mkCC x33 true false true "1"; mkCC x60 false false true "2"; mkCC x70 false false true "1"; mkCC x72 false false true "1"; mkCC x85 false false true "1"; mkCC x86 false false true "1"]).
Definition dev262 := ("010f_0301_1001", mkDevice "Fibargroup" "FGRM222" "Roller Shutter" "010F" "0301" "1001" [mkCC x00 false false true "1"; mkCC x20 false false true "1"; mkCC x25 false false true "1"; mkCC x26 true false true "3"; mkCC x2b false false true "0"; mkCC x31 false false true "2"; mkCC x32 true false true "2"; mkCC x70 false false true "1"; mkCC x72 false false true "1"; mkCC x73 true false true "1"; mkCC x75 true false true "2"; mkCC x85 false false true "1"; mkCC x86 false false true "1"; mkCC x8e true false true "1"; mkCC x91 false false true "0"]).
Definition dev263 := ("010f_0301_3001", mkDevice "Fibargroup" "FGRM222" "Roller Shutter" "010F" "0301" "3001" [mkCC x00 false false true "1"; mkCC x20 false false true "1"; mkCC x25 false false true "1"; mkCC x26 true false true "3"; mkCC x2b false false true "0"; mkCC x31 false false true "2"; mkCC x32 true false true "2"; mkCC x70 false false true "1"; mkCC x72 false false true "1"; mkCC x73 true false true "1"; mkCC x75 true false true "2"; mkCC x85 false false true "1"; mkCC x86 false false true "1"; mkCC x8e true false true "1"; mkCC x91 false false true "0"]).
Definition dev264 := ("010f_0302_1000", mkDevice "Fibargroup" "FGRM222" "Roller Shutter" "010F" "0302" "1000" [mkCC x00 false false true "1"; mkCC x20 false false true "1"; mkCC x25 false false true "1"; mkCC x26 true false true "3"; mkCC x2b false false true "0"; mkCC x31 false false true "2"; mkCC x32 true false true "2"; mkCC x70 false false true "1"; mkCC x72 false false true "1"; mkCC x73 true false true "1"; mkCC x75 true false true "2"; mkCC x85 false false true "1"; mkCC x86 false false true "1"; mkCC x8e true false true "1"; mkCC x91 false false true "0"]).
Definition dev265 := ("010f_0302_3000", mkDevice "Fibargroup" "FGRM222" "Roller Shutter" "010F" "0302" "3000" [mkCC x00 false false true "1"; mkCC x20 false false true "1"; mkCC x25 true false true "1"; mkCC x26 true false true "3"; mkCC x2b false false true "0"; mkCC x31 true false true "2"; mkCC x32 true false true "2"; mkCC x70 true false true "1"; mkCC x72 true false true "1"; mkCC x73 true false true "1"; mkCC x75 true false true "2"; mkCC x85 true false true "1"; mkCC x86 true false true "1"; mkCC x8e true false true "1"; mkCC x91 true false true "0"]).
Definition dev266 := ("010f_0400_0102", mkDevice "Fibargroup" "FGS211" "Relay Switch 1x3kW" "010F" "0400" "0102" [mkCC x00 false false true "1"; mkCC x20 false false true "1"; mkCC x25 false false true "1"; mkCC x60 false false true "2"; mkCC x70 false false true "1"; mkCC x72 false false true "1"; mkCC x85 false false true "1"; mkCC x86 false false true "1"]).
Definition dev267 := ("010f_0400_0104", mkDevice "Fibargroup" "FGS211" "Relay Switch 1x3kW" "010F" "0400" "0104" [mkCC x00 false false true "1"; mkCC x20 false false true "1"; mkCC x25 false false true "1"; mkCC x60 false false true "2"; mkCC x70 false false true "1"; mkCC x72 false false true "1"; mkCC x85 false false true "1"; mkCC x86 false false true "1"]).
Definition dev268 := ("010f_0400_0105", mkDevice "Fibargroup" "FGS211" "Relay Switch 1x3kW" "010F" "0400" "0105" [mkCC x00 false false true "1"; mkCC x20 false false true "1"; mkCC x25 false false true "1"; mkCC x60 false false true "2"; mkCC x70 false false true "1"; mkCC x72 false false true "1"; mkCC x85 false false true "1"; mkCC x86 false false true "1"]).
Definition dev269 := ("010f_0400_0106", mkDevice "Fibargroup" "FGS211" "Relay Switch 1x3kW" "010F" "0400" "0106" [mkCC x00 false false true "1"; mkCC x20 false false true "1"; mkCC x25 false false true "1"; mkCC x60 false false true "2"; mkCC x70 false false true "1"; mkCC x72 false false true "1"; mkCC x85 false false true "1"; mkCC x86 false false true "1"]).
Definition dev270 := ("010f_0400_0107", mkDevice "Fibargroup" "FGS211" "Relay Switch 1x3kW" "010F" "0400" "0107" [mkCC x00 false false true "1"; mkCC x20 false false true "1"; mkCC x25 false false true "1"; mkCC x60 false false true "2"; mkCC x70 false false true "1"; mkCC x72 false false true "1"; mkCC x85 false false true "1"; mkCC x86 false false true "1"]).
Definition dev271 := ("010f_0400_0108", mkDevice "Fibargroup" "FGS211" "Relay Switch 1x3kW" "010F" "0400" "0108" [mkCC x00 false false true "1"; mkCC x20 false false true "1"; mkCC x25 false false true "1"; mkCC x60 false false true "2"; mkCC x70 false false true "1"; mkCC x72 false false true "1"; mkCC x85 false false true "1"; mkCC x86 false false true "1"]).
Definition dev272 := ("010f_0400_0109", mkDevice "Fibargroup" "FGS211" "Relay Switch 1x3kW" "010F" "0400" "0109" [mkCC x00 false false true "1"; mkCC x20 false false true "1"; mkCC x25 false false true "1"; mkCC x60 false false true "2"; mkCC x70 false false true "1"; mkCC x72 false false true "1"; mkCC x85 false false true "1"; mkCC x86 false false true "1"]).
Definition dev273 := ("010f_0400_100a", mkDevice "Fibargroup" "FGS211" "Relay Switch 1x3kW" "010F" "0400" "100A" [mkCC x00 false false true "1"; mkCC x20 false false true "1"; mkCC x25 false false true "1"; mkCC x60 false false true "2"; mkCC x70 false false true "1"; mkCC x72 false false true "1"; mkCC x85 false false true "1"; mkCC x86 false false true "1"]).
Definition dev274 := ("010f_0400_300a", mkDevice "Fibargroup" "FGS211" "Relay Switch 1x3kW" "010F" "0400" "300A" [mkCC x00 false false true "1"; mkCC x20 false false true "1"; mkCC x25 false false true "1"; mkCC x60 false false true "2"; mkCC x70 false false true "1"; mkCC x72 false false true "1"; mkCC x85 false false true "1"; mkCC x86 false false true "1"]).
Definition dev275 := ("010f_0402_3002", mkDevice "Fibargroup" "FGS211" "Relay Switch 1x3kW" "010F" "0402" "3002" [mkCC x00 false false true "1"; mkCC x20 false false true "1"; mkCC x25 false false true "1"; mkCC x60 false false true "2"; mkCC x70 false false true "1"; mkCC x72 false false true "1"; mkCC x85 false false true "1"; mkCC x86 false false true "1"]).
Definition dev276 := ("010f_0401_100a", mkDevice "Fibargroup" "FGS212" "Relay Switch 1x2.5kW" "010F" "0401" "100A" [mkCC x00 false false true "1"; mkCC x20 false false true "1"; mkCC x25 false false true "1"; mkCC x27 false false true "1"; mkCC x60 false false true "2"; mkCC x70 false false true "1"; mkCC x72 false false true "1"; mkCC x84 false false true "0"; mkCC x85 false false true "1"; mkCC x86 false false true "1"; mkCC x87 false false true "0"]).
Definition dev277 := ("010f_0402_1002", mkDevice "Fibargroup" "FGS212" "Relay Switch 1x2.5kW" "010F" "0402" "1002" [mkCC x00 false false true "1"; mkCC x20 false false true "1"; mkCC x25 false false true "1"; mkCC x27 false false true "1"; mkCC x60 false false true "2"; mkCC x70 false false true "1"; mkCC x72 false false true "1"; mkCC x84 false false true "0"; mkCC x85 false false true "1"; mkCC x86 false false true "1"; mkCC x87 false false true "0"]).
Definition dev278 := ("010f_0403_1000", mkDevice "Fibargroup" "FGS213" "Single Switch 2" "010F" "0403" "1000" [mkCC x00 false false true "1"; mkCC x20 false false true "1"; mkCC x22 false false true "1"; mkCC x25 false false true "1"; mkCC x31 false false true "4"; mkCC x32 false false true "3"; mkCC x56 false false true "1"; mkCC x59 false false true "1"; mkCC x5a false false true "1"; mkCC x5b false false true "1"; mkCC x5e false false true "1"; mkCC x60 false false true "2"; mkCC x70 false false true "1"; mkCC x71 false false true "5"; mkCC x72 false false true "1"; mkCC x73 false false true "1"; mkCC x75 false false true "2"; mkCC x7a false false true "1"; mkCC x85 false false true "2"; mkCC x86 false false true "2"; mkCC x8e false false true "3"]).
Definition dev279 := ("010f_0403_3000", mkDevice "Fibargroup" "FGS213" "Single Switch 2" "010F" "0403" "3000" [mkCC x00 false false true "1"; mkCC x20 false false true "1"; mkCC x22 false false true "1"; mkCC x25 false false true "1"; mkCC x31 false false true "4"; mkCC x32 false false true "3"; mkCC x56 false false true "1"; mkCC x59 false false true "1"; mkCC x5a false false true "1"; mkCC x5b false false true "1"; mkCC x5e false false true "1"; mkCC x60 false false true "2"; mkCC x70 false false true "1"; mkCC x71 false false true "5"; mkCC x72 false false true "1"; mkCC x73 false false true "1"; mkCC x75 false false true "2"; mkCC x7a false false true "1"; mkCC x85 false false true "2"; mkCC x86 false false true "2"; mkCC x8e false false true "3"]).
Definition dev280 := ("010f_0200_0102", mkDevice "Fibargroup" "FGS221" "Double Relay Switch 2x1.5kW" "010F" "0200" "0102" [mkCC x00 false false true "1"; mkCC x20 false false true "1"; mkCC x25 true false true "1"; mkCC x27 true false true "0"; mkCC x60 true false true "2"; mkCC x70 true false true "1"; mkCC x72 true false true "1"; mkCC x73 true false true "0"; mkCC x85 true false true "1"; mkCC x86 true false true "1"; mkCC x8e true false true "0"]).
Definition dev281 := ("010f_0200_0103", mkDevice "Fibargroup" "FGS221" "Double Relay Switch 2x1.5kW" "010F" "0200" "0103" [mkCC x00 false false true "1"; mkCC x20 false false true "1"; mkCC x25 true false true "1"; mkCC x27 true false true "0"; mkCC x60 true false true "2"; mkCC x70 true false true "1"; mkCC x72 true false true "1"; mkCC x73 true false true "0"; mkCC x85 true false true "1"; mkCC x86 true false true "1"; mkCC x8e true false true "0"]).
Definition dev282 := ("010f_0200_0104", mkDevice "Fibargroup" "FGS221" "Double Relay Switch 2x1.5kW" "010F" "0200" "0104" [mkCC x00 false false true "1"; mkCC x20 false false true "1"; mkCC x25 true false true "1"; mkCC x27 true false true "0"; mkCC x60 true false true "2"; mkCC x70 true false true "1"; mkCC x72 true false true "1"; mkCC x73 true false true "0"; mkCC x85 true false true "1"; mkCC x86 true false true "1"; mkCC x8e true false true "0"]).
Definition dev283 := ("010f_0200_0105", mkDevice "Fibargroup" "FGS221" "Double Relay Switch 2x1.5kW" "010F" "0200" "0105" [mkCC x00 false false true "1"; mkCC x20 false false true "1"; mkCC x25 true false true "1"; mkCC x27 true false true "0"; mkCC x60 true false true "2"; mkCC x70 true false true "1"; mkCC x72 true false true "1"; mkCC x73 true false true "0"; mkCC x85 true false true "1"; mkCC x86 true false true "1"; mkCC x8e true false true "0"]).
Definition dev284 := ("010f_0200_0106", mkDevice "Fibargroup" "FGS221" "Double Relay Switch 2x1.5kW" "010F" "0200" "0106" [mkCC x00 false false true "1"; mkCC x20 false false true "1"; mkCC x25 true false true "1"; mkCC x27 true false true "0"; mkCC x60 true false true "2"; mkCC x70 true false true "1"; mkCC x72 true false true "1"; mkCC x73 true false true "0"; mkCC x85 true false true "1"; mkCC x86 true false true "1"; mkCC x8e true false true "0"]).
Definition dev285 := ("010f_0200_0107", mkDevice "Fibargroup" "FGS221" "Double Relay Switch 2x1.5kW" "010F" "0200" "0107" [mkCC x00 false false true "1"; mkCC x20 false false true "1"; mkCC x25 true false true "1"; mkCC x27 true false true "0"; mkCC x60 true false true "2"; mkCC x70 true false true "1"; mkCC x72 true false true "1"; mkCC x73 true false true "0"; mkCC x85 true false true "1"; mkCC x86 true false true "1"; mkCC x8e true false true "0"]).
Definition dev286 := ("010f_0200_0109", mkDevice "Fibargroup" "FGS221" "Double Relay Switch 2x1.5kW" "010F" "0200" "0109" [mkCC x00 false false true "1"; mkCC x20 false false true "1"; mkCC x25 true false true "1"; mkCC x27 true false true "0"; mkCC x60 true false true "2"; mkCC x70 true false true "1"; mkCC x72 true false true "1"; mkCC x73 true false true "0"; mkCC x85 true false true "1"; mkCC x86 true false true "1"; mkCC x8e true false true "0"]).
Definition dev287 := ("010f_0200_100a", mkDevice "Fibargroup" "FGS221" "Double Relay Switch 2x1.5kW" "010F" "0200" "100A" [mkCC x00 false false true "1"; mkCC x20 false false true "1"; mkCC x25 true false true "1"; mkCC x27 true false true "0"; mkCC x60 true false true "2"; mkCC x70 true false true "1"; mkCC x72 true false true "1"; mkCC x73 true false true "0"; mkCC x85 true false true "1"; mkCC x86 true false true "1"; mkCC x8e true false true "0"]).
Definition dev288 := ("010f_0200_300a", mkDevice "Fibargroup" "FGS221" "Double Relay Switch 2x1.5kW" "010F" "0200" "300A" [mkCC x00 false false true "1"; mkCC x20 false false true "1"; mkCC x25 true false true "1"; mkCC x27 true false true "0"; mkCC x60 true false true "2"; mkCC x70 true false true "1"; mkCC x72 true false true "1"; mkCC x73 true false true "0"; mkCC x85 true false true "1"; mkCC x86 true false true "1"; mkCC x8e true false true "0"]).
Definition dev289 := ("010f_0202_3002", mkDevice "Fibargroup" "FGS221" "Double Relay Switch 2x1.5kW" "010F" "0202" "3002" [mkCC x00 false false true "1"; mkCC x20 false false true "1"; mkCC x25 true false true "1"; mkCC x27 true false true "0"; mkCC x60 true false true "2"; mkCC x70 true false true "1"; mkCC x72 true false true "1"; mkCC x73 true false true "0"; mkCC x85 true false true "1"; mkCC x86 true false true "1"; mkCC x8e true false true "0"]).
Definition dev290 := ("010f_0202_1002", mkDevice "Fibargroup" "FGS222" "Double Relay Switch 2x1.5kW" "010F" "0202" "1002" [mkCC x00 false false true "1"; mkCC x20 false false true "1"; mkCC x25 false false true "1"; mkCC x27 false false true "1"; mkCC x60 false false true "2"; mkCC x70 false false true "1"; mkCC x72 false false true "1"; mkCC x85 false false true "1"; mkCC x86 false false true "1"]).
Definition dev291 := ("010f_0202_4002", mkDevice "Fibargroup" "FGS222" "Double Relay Switch 2x1.5kW" "010F" "0202" "4002" [mkCC x00 false false true "1"; mkCC x20 false false true "1"; mkCC x25 false false true "1"; mkCC x27 false false true "1"; mkCC x60 false false true "2"; mkCC x70 false false true "1"; mkCC x72 false false true "1"; mkCC x85 false false true "1"; mkCC x86 false false true "1"]).
Definition dev292 := ("010f_0203_1000", mkDevice "Fibargroup" "FGS223" "Double Switch 2 " "010F" "0203" "1000" [mkCC x00 false false true "1"; mkCC x20 false true true "1"; mkCC x22 false false true "1"; mkCC x25 false false true "1"; mkCC x32 false false true "3"; mkCC x56 false false true "1"; mkCC x5b false false true "1"; mkCC x60 false false true "2"; mkCC x70 false false true "1"; mkCC x71 false false true "1"; mkCC x72 false false true "1"; mkCC x85 false false true "1"; mkCC x86 false false true "1"]).
Definition dev293 := ("010f_0203_2000", mkDevice "Fibargroup" "FGS223" "Double Switch 2 " "010F" "0203" "2000" [mkCC x00 false false true "1"; mkCC x20 false true true "1"; mkCC x22 false false true "1"; mkCC x25 false false true "1"; mkCC x32 false false true "3"; mkCC x56 false false true "1"; mkCC x5b false false true "1"; mkCC x60 false false true "2"; mkCC x70 false false true "1"; mkCC x71 false false true "1"; mkCC x72 false false true "1"; mkCC x85 false false true "1"; mkCC x86 false false true "1"]).
Definition dev294 := ("010f_0203_3000", mkDevice "Fibargroup" "FGS223" "Double Switch 2 " "010F" "0203" "3000" [mkCC x00 false false true "1"; mkCC x20 false true true "1"; mkCC x22 false false true "1"; mkCC x25 false false true "1"; mkCC x32 false false true "3"; mkCC x56 false false true "1"; mkCC x5b false false true "1"; mkCC x60 false false true "2"; mkCC x70 false false true "1"; mkCC x71 false false true "1"; mkCC x72 false false true "1"; mkCC x85 false false true "1"; mkCC x86 false false true "1"]).
Definition dev295 := ("010f_0c02_1002", mkDevice "Fibargroup" "FGSD002" "Smoke Detector" "010F" "0C02" "1002" [mkCC x00 false false true "1"; mkCC x20 false false true "1"; mkCC x22 true false true "1"; mkCC x31 true false true "5"; mkCC x56 true false true "1"; mkCC x59 true false true "0"; mkCC x5a true false true "1"; mkCC x5e true false true "1"; mkCC x70 true false true "1"; mkCC x71 true false true "3"; mkCC x72 true false true "1"; mkCC x73 true false true "1"; mkCC x7a true false true "0"; mkCC x80 true false true "1"; mkCC x84 true false true "2"; mkCC x85 true false true "1"; mkCC x86 true false true "1"; mkCC x8b true false true "0"; mkCC x8e true false true "0"; mkCC x9c true false true "1"]).
Definition dev296 := ("010f_0c00_1000", mkDevice "Fibargroup" "FGSS001" "Smoke Sensor" "010F" "0C00" "1000" [mkCC x00 false false true "1"; mkCC x20 false false true "1"; mkCC x31 false false true "1"; mkCC x56 false false true "1"; mkCC x70 false false true "1"; mkCC x72 false false true "1"; mkCC x80 false false true "1"; mkCC x84 false false true "1"; mkCC x85 false false true "1"; mkCC x86 false false true "1"; mkCC x8b false false true "1"; mkCC x9c false false true "1"]).
Definition dev297 := ("010f_0c00_3000", mkDevice "Fibargroup" "FGSS001" "Smoke Sensor" "010F" "0C00" "3000" [mkCC x00 false false true "1"; mkCC x20 false false true "1"; mkCC x31 false false true "1"; mkCC x56 false false true "1"; mkCC x70 false false true "1"; mkCC x72 false false true "1"; mkCC x80 false false true "1"; mkCC x84 false false true "1"; mkCC x85 false false true "1"; mkCC x86 false false true "1"; mkCC x8b false false true "1"; mkCC x9c false false true "1"]).
Definition dev298 := ("010f_0600_1000", mkDevice "Fibargroup" "FGWP101" "Metered Wall Plug Switch" "010F" "0600" "1000" [mkCC x00 false false true "1"; mkCC x20 false false true "1"; mkCC x25 false false true "1"; mkCC x31 false false true "2"; mkCC x32 false false true "2"; mkCC x70 false false true "1"; mkCC x71 true false true "5"; mkCC x72 false false true "1"; mkCC x85 false false true "1"; mkCC x86 false false true "1"]).
Definition dev299 := ("010f_0602_1001", mkDevice "Fibargroup" "FGWP102" "Metered Wall Plug Switch" "010F" "0602" "1001" [mkCC x00 false false true "1"; mkCC x20 false false true "1"; mkCC x22 false false true "1"; mkCC x25 false false true "1"; mkCC x31 false false true "5"; mkCC x32 false false true "2"; mkCC x56 false false true "1"; mkCC x70 false false true "1"; mkCC x71 false false true "1"; mkCC x72 false false true "1"; mkCC x85 false false true "1"; mkCC x86 false false true "1"]).
Definition dev300 := ("0207_0027_0100", mkDevice "Forest Group Nederland B.V" "Forest Shuttle S/L, Forest Group NL" "Drapery hardware" "0207" "0027" "0100" [mkCC x00 false false true "1"; mkCC x20 false false true "1"; mkCC x25 true false true "1"; mkCC x26 true false true "3"; mkCC x27 true false true "1"; mkCC x59 true false true "1"; mkCC x5a true false true "1"; mkCC x5e true false true "1"; mkCC x72 true false true "1"; mkCC x73 true false true "1"; mkCC x7a true false true "1"; mkCC x85 true false true "2"; mkCC x86 true false true "2"]).
Definition dev301 := ("0084_0451_010e", mkDevice "FortrezZ LLC" "MIMOlite" "Digital or Analog Voltage input and/or Dry Contact				Relay			" "0084" "0451" "010E" [mkCC x00 false false true "1"; mkCC x20 false false true "1"; mkCC x25 false false true "1"; mkCC x30 false false true "1"; mkCC x31 false false true "1"; mkCC x70 false false true "1"; mkCC x71 false false true "1"; mkCC x72 false false true "1"; mkCC x85 false false true "1"; mkCC x86 false false true "1"]).
Definition dev302 := ("0084_0453_010e", mkDevice "FortrezZ LLC" "MIMOlite" "Digital or Analog Voltage input and/or Dry Contact				Relay			" "0084" "0453" "010E" [mkCC x00 false false true "1"; mkCC x20 false false true "1"; mkCC x25 false false true "1"; mkCC x30 false false true "1"; mkCC x31 false false true "1"; mkCC x70 false false true "1"; mkCC x71 false false true "1"; mkCC x72 false false true "1"; mkCC x85 false false true "1"; mkCC x86 false false true "1"]).
Definition dev303 := ("0084_0453_010f", mkDevice "FortrezZ LLC" "MIMOlite" "Digital or Analog Voltage input and/or Dry Contact				Relay			" "0084" "0453" "010F" [mkCC x00 false false true "1"; mkCC x20 false false true "1"; mkCC x25 false false true "1"; mkCC x30 false false true "1"; mkCC x31 false false true "1"; mkCC x70 false false true "1"; mkCC x71 false false true "1"; mkCC x72 false false true "1"; mkCC x85 false false true "1"; mkCC x86 false false true "1"]).
Definition dev304 := ("0084_0453_0110", mkDevice "FortrezZ LLC" "MIMOlite" "Digital or Analog Voltage input and/or Dry Contact				Relay			" "0084" "0453" "0110" [mkCC x00 false false true "1"; mkCC x20 false false true "1"; mkCC x25 false false true "1"; mkCC x30 false false true "1"; mkCC x31 false false true "1"; mkCC x70 false false true "1"; mkCC x71 false false true "1"; mkCC x72 false false true "1"; mkCC x85 false false true "1"; mkCC x86 false false true "1"]).
Definition dev305 := ("0084_0453_0111", mkDevice "FortrezZ LLC" "MIMOlite" "Digital or Analog Voltage input and/or Dry Contact				Relay			" "0084" "0453" "0111" [mkCC x00 false false true "1"; mkCC x20 false false true "1"; mkCC x25 false false true "1"; mkCC x30 false false true "1"; mkCC x31 false false true "1"; mkCC x70 false false true "1"; mkCC x71 false false true "1"; mkCC x72 false false true "1"; mkCC x85 false false true "1"; mkCC x86 false false true "1"]).
Definition dev306 := ("0084_0311_010b", mkDevice "FortrezZ LLC" "SSA1/SSA2" "Siren and Strobe Alarm" "0084" "0311" "010B" [mkCC x00 false false true "1"; mkCC x20 false false true "1"; mkCC x22 true false true "1"; mkCC x26 true false true "1"; mkCC x70 true false true "1"; mkCC x71 true false true "2"; mkCC x72 true false true "1"; mkCC x86 true false true "1"]).
Definition dev307 := ("0084_0313_0108", mkDevice "FortrezZ LLC" "SSA1/SSA2" "Siren and Strobe Alarm" "0084" "0313" "0108" [mkCC x00 false false true "1"; mkCC x20 false false true "1"; mkCC x22 true false true "1"; mkCC x26 true false true "1"; mkCC x70 true false true "1"; mkCC x71 true false true "2"; mkCC x72 true false true "1"; mkCC x86 true false true "1"]).
Definition dev308 := ("0084_0313_010b", mkDevice "FortrezZ LLC" "SSA1/SSA2" "Siren and Strobe Alarm" "0084" "0313" "010B" [mkCC x00 false false true "1"; mkCC x20 false false true "1"; mkCC x22 true false true "1"; mkCC x26 true false true "1"; mkCC x70 true false true "1"; mkCC x71 true false true "2"; mkCC x72 true false true "1"; mkCC x86 true false true "1"]).
Definition dev309 := ("0084_0213_0215", mkDevice "FortrezZ LLC" "WV-01" "Wireless Z-Wave Water Valve" "0084" "0213" "0215" [mkCC x00 false false true "1"; mkCC x20 false false true "1"; mkCC x22 false false true "1"; mkCC x25 false false true "1"; mkCC x70 false false true "1"; mkCC x71 false false true "1"; mkCC x72 false false true "1"; mkCC x86 false false true "1"]).
Definition dev310 := ("0084_0061_010c", mkDevice "FortrezZ LLC" "WWA-02" "Wireless Water and Temperature Alarm" "0084" "0061" "010C" [mkCC x00 false false true "1"; mkCC x20 false false true "1"; mkCC x31 false false true "1"; mkCC x70 false false true "1"; mkCC x71 false false true "1"; mkCC x72 false false true "1"; mkCC x80 false false true "1"; mkCC x84 false false true "2"; mkCC x85 false false true "1"; mkCC x86 false false true "1"]).
Definition dev311 := ("0084_0063_010c", mkDevice "FortrezZ LLC" "WWA-02" "Wireless Water and Temperature Alarm" "0084" "0063" "010C" [mkCC x00 false false true "1"; mkCC x20 false false true "1"; mkCC x31 false false true "1"; mkCC x70 false false true "1"; mkCC x71 false false true "1"; mkCC x72 false false true "1"; mkCC x80 false false true "1"; mkCC x84 false false true "2"; mkCC x85 false false true "1"; mkCC x86 false false true "1"]).
Definition dev312 := ("0063_5044_3031", mkDevice "Jasco Products" "12718" "Smart Dimmer" "0063" "5044" "3031" [mkCC x00 false false true "1"; mkCC x20 false false true "1"; mkCC x26 true false true "1"; mkCC x27 true false true "1"; mkCC x70 true false true "1"; mkCC x72 true false true "1"; mkCC x73 true false true "1"; mkCC x77 true false true "1"; mkCC x86 true false true "1"]).
Definition dev313 := ("0063_4952_3033", mkDevice "Jasco Products" "12727" "GE 12727 Z-Wave Wireless Lighting Control Smart Toggle Switch" "0063" "4952" "3033" [mkCC x00 false false true "1"; mkCC x20 false false true "1"; mkCC x25 false false true "1"; mkCC x27 false false true "1"; mkCC x70 false false true "1"; mkCC x72 false false true "1"; mkCC x77 false false true "1"; mkCC x86 false false true "1"]).
Definition dev314 := ("0063_4944_3033", mkDevice "Jasco Products" "12729" "In-Wall Smart Dimmer" "0063" "4944" "3033" [mkCC x00 false false true "1"; mkCC x20 false false true "1"; mkCC x26 true false true "1"; mkCC x27 true false true "1"; mkCC x70 true false true "1"; mkCC x72 true false true "1"; mkCC x73 true false true "1"; mkCC x77 true false true "1"; mkCC x86 true false true "1"]).
Definition dev315 := ("0063_4c42_3031", mkDevice "Jasco Products" "35931" "Enbrighten 60W Dimmable Light Bulb" "0063" "4C42" "3031" [mkCC x00 false false true "1"; mkCC x20 false false true "1"; mkCC x26 true false true "1"; mkCC x27 true false true "1"; mkCC x59 true false true "1"; mkCC x5a true false true "1"; mkCC x5e true false true "1"; mkCC x70 true false true "1"; mkCC x72 true false true "1"; mkCC x73 true false true "1"; mkCC x7a true false true "1"; mkCC x85 true false true "2"; mkCC x86 true false true "2"]).
Definition dev316 := ("0063_5052_3031", mkDevice "Jasco Products" "45603" "Fluorescent Light & Appliance Module" "0063" "5052" "3031" [mkCC x00 false false true "1"; mkCC x20 false false true "1"; mkCC x25 false false true "1"; mkCC x72 false false true "1"; mkCC x75 false false true "1"; mkCC x86 false false true "1"]).
Definition dev317 := ("0063_5250_3030", mkDevice "Jasco Products" "45603" "Fluorescent Light & Appliance Module" "0063" "5250" "3030" [mkCC x00 false false true "1"; mkCC x20 false false true "1"; mkCC x25 false false true "1"; mkCC x72 false false true "1"; mkCC x75 false false true "1"; mkCC x86 false false true "1"]).
Definition dev318 := ("0063_5250_3130", mkDevice "Jasco Products" "45604" "Outdoor Lighting Control Module" "0063" "5250" "3130" [mkCC x00 false false true "1"; mkCC x20 false false true "1"; mkCC x25 true false true "1"; mkCC x27 true false true "1"; mkCC x72 true false true "1"; mkCC x73 true false true "1"; mkCC x75 true false true "1"; mkCC x77 true false true "1"; mkCC x86 true false true "1"]).
Definition dev319 := ("0063_4f50_3031", mkDevice "Jasco Products" "45604" "Outdoor Lighting Control Module" "0063" "4F50" "3031" [mkCC x00 false false true "1"; mkCC x20 false false true "1"; mkCC x25 true false true "1"; mkCC x27 true false true "1"; mkCC x72 true false true "1"; mkCC x73 true false true "1"; mkCC x75 true false true "1"; mkCC x77 true false true "1"; mkCC x86 true false true "1"]).
Definition dev320 := ("0063_5252_3530", mkDevice "Jasco Products" "45605" "Duplex receptacle" "0063" "5252" "3530" [mkCC x00 false false true "1"; mkCC x20 false false true "1"; mkCC x25 true false true "1"; mkCC x27 true false true "1"; mkCC x70 true false true "1"; mkCC x72 true false true "1"; mkCC x73 true false true "1"; mkCC x75 true false true "1"; mkCC x77 true false true "1"; mkCC x86 true false true "1"]).
Definition dev321 := ("0063_4457_3230", mkDevice "Jasco Products" "45606" "2-Way Dimmer Switch" "0063" "4457" "3230" [mkCC x00 false false true "1"; mkCC x20 false false true "1"; mkCC x26 false false true "1"; mkCC x27 false false true "1"; mkCC x70 false false true "1"; mkCC x72 false false true "1"; mkCC x86 false false true "1"]).
Definition dev322 := ("0063_4457_3033", mkDevice "Jasco Products" "45607" "2-Way Dimmer Switch" "0063" "4457" "3033" [mkCC x00 false false true "1"; mkCC x20 false false true "1"; mkCC x26 true false true "1"; mkCC x27 true false true "1"; mkCC x70 true false true "1"; mkCC x72 true false true "1"; mkCC x73 true false true "1"; mkCC x86 true false true "1"]).
Definition dev323 := ("0063_5257_3533", mkDevice "Jasco Products" "45609" "On/Off Relay Switch" "0063" "5257" "3533" [mkCC x00 false false true "1"; mkCC x20 false false true "1"; mkCC x25 false false true "1"; mkCC x27 false false true "1"; mkCC x70 false false true "1"; mkCC x72 false false true "1"; mkCC x77 false false true "1"; mkCC x86 false false true "1"]).
Definition dev324 := ("0063_6363_3533", mkDevice "Jasco Products" "45609" "On/Off Relay Switch" "0063" "6363" "3533" [mkCC x00 false false true "1"; mkCC x20 false false true "1"; mkCC x25 false false true "1"; mkCC x27 false false true "1"; mkCC x70 false false true "1"; mkCC x72 false false true "1"; mkCC x77 false false true "1"; mkCC x86 false false true "1"]).
Definition dev325 := ("0063_4944_3032", mkDevice "Jasco Products" "GE 12725" "In-Wall Dimmer" "0063" "4944" "3032" [mkCC x00 false false true "1"; mkCC x20 false false true "0"; mkCC x26 false false true "1"; mkCC x27 false false true "1"; mkCC x70 false false true "1"; mkCC x72 false false true "1"; mkCC x86 false false true "1"]).
Definition dev326 := ("0063_4952_3036", mkDevice "Jasco Products" "GE 14291 (ZW4005)" "In-Wall Paddle Switch" "0063" "4952" "3036" [mkCC x00 false false true "1"; mkCC x20 false false true "1"; mkCC x25 true false true "1"; mkCC x27 true false true "1"; mkCC x2b true false true "1"; mkCC x2c true false true "1"; mkCC x56 true false true "1"; mkCC x59 true false true "1"; mkCC x5a true false true "1"; mkCC x5e true false true "1"; mkCC x70 true false true "1"; mkCC x72 true false true "1"; mkCC x73 true false true "1"; mkCC x7a true false true "1"; mkCC x85 true false true "2"; mkCC x86 true false true "2"]).
Definition dev327 := ("0063_4944_3038", mkDevice "Jasco Products" "GE 14294 (ZW3005)" "In-Wall Dimmer Switch" "0063" "4944" "3038" [mkCC x00 false false true "1"; mkCC x20 false false true "1"; mkCC x26 true false true "1"; mkCC x27 true false true "1"; mkCC x56 true false true "1"; mkCC x59 true false true "1"; mkCC x5a true false true "1"; mkCC x5e true false true "1"; mkCC x70 true false true "1"; mkCC x72 true false true "1"; mkCC x73 true false true "1"; mkCC x7a true false true "1"; mkCC x85 true false true "2"; mkCC x86 true false true "2"]).
Definition dev328 := ("0063_4944_3135", mkDevice "Jasco Products" "GE/Jasco 14321" "In-Wall Dimmer" "0063" "4944" "3135" [mkCC x00 false false true "1"; mkCC x20 false false true "1"; mkCC x26 true false true "2"; mkCC x27 true false true "1"; mkCC x2b true false true "1"; mkCC x2c true false true "1"; mkCC x56 true false true "1"; mkCC x59 true false true "1"; mkCC x5a true false true "1"; mkCC x5e true false true "1"; mkCC x70 true false true "1"; mkCC x72 true false true "1"; mkCC x73 true false true "1"; mkCC x7a true false true "1"; mkCC x85 true false true "2"; mkCC x86 true false true "2"]).
Definition dev329 := ("0063_5052_3033", mkDevice "Jasco Products" "GE Plug in Smart Switch" "GE Plug in Smart Switch Zwave Plus" "0063" "5052" "3033" [mkCC x00 false false true "1"; mkCC x20 false false true "1"; mkCC x25 true false true "1"; mkCC x27 true false true "1"; mkCC x56 true false true "1"; mkCC x59 true false true "1"; mkCC x5a true false true "1"; mkCC x5e true false true "1"; mkCC x70 true false true "1"; mkCC x72 true false true "1"; mkCC x73 true false true "1"; mkCC x7a true false true "1"; mkCC x85 true false true "2"; mkCC x86 true false true "2"]).
Definition dev330 := ("0063_4953_3032", mkDevice "Jasco Products" "Jasco Smart Door Sensor" "Hinge Pin Smart Door Sensor" "0063" "4953" "3032" [mkCC x00 false false true "1"; mkCC x20 false false true "1"; mkCC x30 true false true "2"; mkCC x59 true false true "1"; mkCC x5a true false true "1"; mkCC x5e true false true "1"; mkCC x70 true false true "1"; mkCC x71 true false true "4"; mkCC x72 true false true "1"; mkCC x73 true false true "1"; mkCC x7a true false true "1"; mkCC x80 true false true "1"; mkCC x84 true false true "2"; mkCC x85 true false true "2"; mkCC x86 true false true "2"]).
Definition dev331 := ("0063_4952_3031", mkDevice "Jasco Products" "ZW1001" "Smart Outlet" "0063" "4952" "3031" [mkCC x00 false false true "1"; mkCC x20 false false true "1"; mkCC x25 false false true "1"; mkCC x27 false false true "1"; mkCC x70 false false true "1"; mkCC x72 false false true "1"; mkCC x77 false false true "1"; mkCC x86 false false true "1"]).
Definition dev332 := ("0063_4944_3031", mkDevice "Jasco Products" "ZW3003, GE 12724" "In-Wall Dimmer" "0063" "4944" "3031" [mkCC x00 false false true "1"; mkCC x20 false false true "1"; mkCC x26 false false true "1"; mkCC x27 false false true "1"; mkCC x70 false false true "1"; mkCC x72 false false true "1"; mkCC x77 false false true "1"; mkCC x86 false false true "1"]).
Definition dev333 := ("0063_4450_3030", mkDevice "Jasco Products" "ZW3101" "Lamp Module" "0063" "4450" "3030" [mkCC x00 false false true "1"; mkCC x20 false false true "1"; mkCC x26 true false true "1"; mkCC x27 true false true "1"; mkCC x70 true false true "1"; mkCC x72 true false true "1"; mkCC x73 true false true "1"; mkCC x77 true false true "1"; mkCC x86 true false true "1"]).
Definition dev334 := ("0063_4944_3034", mkDevice "Jasco Products" "ZW4002" "In-Wall Smart Fan Control" "0063" "4944" "3034" [mkCC x00 false false true "1"; mkCC x20 false false true "1"; mkCC x26 false false true "1"; mkCC x27 false false true "1"; mkCC x70 false false true "1"; mkCC x72 false false true "1"; mkCC x86 false false true "1"]).
Definition dev335 := ("0063_4944_3131", mkDevice "Jasco Products" "ZW4002" "In-Wall Smart Fan Control" "0063" "4944" "3131" [mkCC x00 false false true "1"; mkCC x20 false false true "1"; mkCC x26 false false true "1"; mkCC x27 false false true "1"; mkCC x70 false false true "1"; mkCC x72 false false true "1"; mkCC x86 false false true "1"]).
Definition dev336 := ("0063_4952_3032", mkDevice "Jasco Products" "ZW4005, 12722" "On/Off Relay Switch" "0063" "4952" "3032" [mkCC x00 false false true "1"; mkCC x20 false false true "1"; mkCC x25 false false true "1"; mkCC x27 false false true "1"; mkCC x70 false false true "1"; mkCC x72 false false true "1"; mkCC x77 false false true "1"; mkCC x86 false false true "1"]).
Definition dev337 := ("0063_6363_3030", mkDevice "Jasco Products" "ZW4101" "Fluorescent Light & Appliance Module" "0063" "6363" "3030" [mkCC x00 false false true "1"; mkCC x20 false false true "1"; mkCC x25 true false true "1"; mkCC x27 true false true "1"; mkCC x72 true false true "1"; mkCC x73 true false true "1"; mkCC x75 true false true "1"; mkCC x77 true false true "1"; mkCC x86 true false true "1"]).
Definition dev338 := ("0063_4953_3133", mkDevice "Jasco Products" "ZW6302" "Portable Smart Motion Sensor" "0063" "4953" "3133" [mkCC x00 false false true "1"; mkCC x20 false false true "1"; mkCC x30 false false true "2"; mkCC x70 false false true "1"; mkCC x71 false false true "1"; mkCC x72 false false true "1"; mkCC x80 false false true "1"; mkCC x84 false false true "2"; mkCC x85 false false true "1"; mkCC x86 false false true "1"]).
Definition dev339 := ("026e_4353_5a31", mkDevice "Graber" "CSZ1" "Cellular Shade Radio Z-Wave" "026E" "4353" "5A31" [mkCC x25 false false true "1"; mkCC x26 false false true "3"; mkCC x59 false false true "1"; mkCC x5a false false true "1"; mkCC x5e false false true "1"; mkCC x72 false false true "1"; mkCC x73 false false true "1"; mkCC x7a false false true "1"; mkCC x80 false false true "1"; mkCC x85 false false true "2"; mkCC x86 false false true "2"]).
Definition dev340 := ("026e_5253_5a31", mkDevice "Graber" "RSZ1" "Somfy Motorized Shade" "026E" "5253" "5A31" [mkCC x00 false false true "1"; mkCC x20 false false true "1"; mkCC x25 false false true "1"; mkCC x26 false false true "3"; mkCC x72 false false true "1"; mkCC x80 false false true "1"; mkCC x85 false false true "1"; mkCC x86 false false true "1"]).
Definition dev341 := ("0099_0002_0002", mkDevice "GreenWave Reality Inc." "GWPN1" "Single-socket PowerNode" "0099" "0002" "0002" [mkCC x00 false false true "1"; mkCC x20 false false true "1"; mkCC x25 false false true "1"; mkCC x27 false false true "0"; mkCC x32 false false true "2"; mkCC x56 false false true "1"; mkCC x60 false false true "2"; mkCC x70 false false true "1"; mkCC x71 false false true "1"; mkCC x72 false false true "1"; mkCC x75 true false true "1"; mkCC x85 false false true "1"; mkCC x86 false false true "1"; mkCC x87 true false true "0"]).
Definition dev342 := ("0099_0003_0003", mkDevice "GreenWave Reality Inc." "GWPN5" "Multi-socket PowerNode (5-plug)" "0099" "0003" "0003" [mkCC x00 false false true "1"; mkCC x20 false false true "1"; mkCC x25 false false true "1"; mkCC x27 false false true "0"; mkCC x32 false false true "2"; mkCC x56 false false true "1"; mkCC x60 false false true "2"; mkCC x70 false false true "1"; mkCC x71 false false true "1"; mkCC x72 false false true "1"; mkCC x85 false false true "1"; mkCC x86 false false true "1"]).
Definition dev343 := ("0099_0003_0004", mkDevice "GreenWave Reality Inc." "GWPN6" "Multi-socket PowerNode (6-plug)" "0099" "0003" "0004" [mkCC x00 false false true "1"; mkCC x20 false false true "1"; mkCC x25 false false true "1"; mkCC x27 false false true "0"; mkCC x32 false false true "2"; mkCC x56 false false true "1"; mkCC x60 false false true "2"; mkCC x70 false false true "1"; mkCC x71 false false true "1"; mkCC x72 false false true "1"; mkCC x85 false false true "1"; mkCC x86 false false true "1"]).
Definition dev344 := ("0208_0101_0005", mkDevice "Hank" "HKZW-SO01" "Smart Plug and Energy Meter with two USB ports" "0208" "0101" "0005" [mkCC x00 false false true "1"; mkCC x20 false false true "1"; mkCC x25 true false true "1"; mkCC x26 false false true "0"; mkCC x27 true false true "1"; mkCC x2b true false true "1"; mkCC x2c true false true "1"; mkCC x32 true false true "3"; mkCC x59 true false true "1"; mkCC x5a true false true "1"; mkCC x5e true false true "1"; mkCC x70 true false true "1"; mkCC x72 true false true "1"; mkCC x73 true false true "1"; mkCC x7a true false true "1"; mkCC x85 true false true "2"; mkCC x86 true false true "2"]).
Definition dev345 := ("0208_0200_0009", mkDevice "Hank" "SCN01" "Scene Controller" "0208" "0200" "0009" [mkCC x00 false false true "1"; mkCC x20 false false true "1"; mkCC x59 true false true "1"; mkCC x5a true false true "1"; mkCC x5b true false true "2"; mkCC x5e true false true "1"; mkCC x70 true false true "1"; mkCC x72 true false true "1"; mkCC x73 true false true "1"; mkCC x7a true false true "1"; mkCC x80 true false true "1"; mkCC x84 true false true "2"; mkCC x85 true false true "2"; mkCC x86 true false true "2"]).
Definition dev346 := ("0208_0100_000a", mkDevice "Hank" "SO05" "Smart Plug" "0208" "0100" "000A" [mkCC x00 false false true "1"; mkCC x20 false false true "1"; mkCC x25 true false true "1"; mkCC x27 true false true "1"; mkCC x2b true false true "1"; mkCC x2c true false true "1"; mkCC x32 true false true "3"; mkCC x59 true false true "1"; mkCC x5a true false true "1"; mkCC x5e true false true "1"; mkCC x70 true false true "1"; mkCC x72 true false true "1"; mkCC x73 true false true "1"; mkCC x7a true false true "1"; mkCC x85 true false true "2"; mkCC x86 true false true "2"]).
Definition dev347 := ("0260_0168_0168", mkDevice "Heiman Technology Co. Ltd" "HS1DS" "Door/Window Contact" "0260" "0168" "0168" [mkCC x00 false false true "1"; mkCC x20 false false true "1"; mkCC x30 true false true "2"; mkCC x59 true false true "1"; mkCC x5a true false true "1"; mkCC x5e true false true "1"; mkCC x71 true false true "4"; mkCC x72 true false true "1"; mkCC x73 true false true "1"; mkCC x80 true false true "1"; mkCC x84 true false true "2"; mkCC x85 true false true "2"; mkCC x86 true false true "2"]).
Definition dev348 := ("0260_8002_1000", mkDevice "Heiman Technology Co. Ltd" "HS1SA" "Smoke Detector" "0260" "8002" "1000" [mkCC x00 false false true "1"; mkCC x20 false false true "1"; mkCC x30 true false true "2"; mkCC x59 true false true "1"; mkCC x5a true false true "1"; mkCC x5e true false true "1"; mkCC x71 true false true "4"; mkCC x72 true false true "1"; mkCC x73 true false true "1"; mkCC x80 true false true "1"; mkCC x84 true false true "2"; mkCC x85 true false true "2"; mkCC x86 true false true "2"]).
Definition dev349 := ("0260_8006_1000", mkDevice "Heiman Technology Co. Ltd" "HS2SK-Z" "In-Wall Switch Module" "0260" "8006" "1000" [mkCC x00 false false true "1"; mkCC x20 false false true "1"; mkCC x25 true false true "1"; mkCC x27 true false true "1"; mkCC x32 true false true "3"; mkCC x59 true false true "1"; mkCC x5a true false true "1"; mkCC x5e true false true "1"; mkCC x72 true false true "1"; mkCC x73 true false true "1"; mkCC x85 true false true "2"; mkCC x86 true false true "2"]).
Definition dev350 := ("0293_0004_0000", mkDevice "Hogar Controls" "HTP-4S1-FB" "Four Touch Panel and Power Socket" "0293" "0004" "0000" [mkCC x00 false false true "1"; mkCC x20 true false true "1"; mkCC x25 false false true "1"; mkCC x27 false false true "1"; mkCC x60 false false true "1"; mkCC x70 false false true "1"; mkCC x72 false false true "1"; mkCC x85 false false true "1"; mkCC x86 false false true "1"]).
Definition dev351 := ("0293_0003_0014", mkDevice "Hogar Controls" "HTP-4S1-FB" "Four Touch Panel and Power Socket" "0293" "0003" "0014" [mkCC x00 false false true "1"; mkCC x20 true false true "1"; mkCC x25 false false true "1"; mkCC x27 false false true "1"; mkCC x60 false false true "1"; mkCC x70 false false true "1"; mkCC x72 false false true "1"; mkCC x85 false false true "1"; mkCC x86 false false true "1"]).
Definition dev352 := ("001e_0002_0002", mkDevice "Express Controls" "EZMotion Express" "Wireless 3-in-1 Sensor" "001E" "0002" "0002" [mkCC x00 false false true "1"; mkCC x20 false false true "1"; mkCC x31 true false true "5"; mkCC x70 true false true "1"; mkCC x72 true false true "1"; mkCC x80 true false true "1"; mkCC x84 true false true "2"; mkCC x85 true false true "1"; mkCC x86 true false true "1"]).
Definition dev353 := ("001e_0002_0001", mkDevice "Express Controls" "EZMotion Express" "Wireless 3-in-1 Sensor" "001E" "0002" "0001" [mkCC x00 false false true "1"; mkCC x20 false false true "1"; mkCC x31 true false true "5"; mkCC x70 true false true "1"; mkCC x72 true false true "1"; mkCC x80 true false true "1"; mkCC x84 true false true "2"; mkCC x85 true false true "1"; mkCC x86 true false true "1"]).
Definition dev354 := ("001e_0004_0001", mkDevice "Express Controls" "EZMultiPli" "Multi Sensor" "001E" "0004" "0001" [mkCC x00 false false true "1"; mkCC x20 false false true "1"; mkCC x31 false false true "5"; mkCC x33 false false true "1"; mkCC x70 false false true "1"; mkCC x71 false false true "1"; mkCC x72 false false true "1"; mkCC x77 false false true "1"; mkCC x85 false false true "1"; mkCC x86 false false true "1"]).
Definition dev355 := ("000c_4447_3034", mkDevice "HomeSeer Technologies" "HS-WD100+" "Scene Capable Wall Dimmer Switch" "000C" "4447" "3034" [mkCC x00 false false true "1"; mkCC x20 true false true "1"; mkCC x26 true false true "1"; mkCC x27 true false true "1"; mkCC x2b false false true "1"; mkCC x59 true false true "1"; mkCC x5a true false true "1"; mkCC x5b false false true "1"; mkCC x5e false false true "1"; mkCC x70 true false true "1"; mkCC x72 true false true "2"; mkCC x73 true false true "1"; mkCC x7a true false true "2"; mkCC x85 true false true "2"; mkCC x86 true false true "2"]).
Definition dev356 := ("000c_4447_3033", mkDevice "HomeSeer Technologies" "HS-WS100+" "Scene Capable Wall Switch" "000C" "4447" "3033" [mkCC x00 false false true "1"; mkCC x20 true false true "1"; mkCC x25 true false true "1"; mkCC x27 true false true "1"; mkCC x2b false false true "1"; mkCC x2c false false true "1"; mkCC x59 true false true "1"; mkCC x5a true false true "1"; mkCC x5b false false true "1"; mkCC x5e false false true "1"; mkCC x70 true false true "1"; mkCC x72 true false true "1"; mkCC x73 true false true "1"; mkCC x7a true false true "1"; mkCC x85 true false true "1"; mkCC x86 true false true "1"]).
Definition dev357 := ("0039_0011_0001", mkDevice "Honeywell" "TH8320ZW" "VisionPRO Z-Wave Touchscreen Programmable
				Thermostat
			" "0039" "0011" "0001" [mkCC x00 false false true "1"; mkCC x20 true false true "1"; mkCC x27 true false true "1"; mkCC x31 true false true "3"; mkCC x40 true false true "2"; mkCC x42 true false true "1"; mkCC x43 true false true "2"; mkCC x44 true false true "2"; mkCC x45 true false true "1"; mkCC x72 true false true "1"; mkCC x85 true false true "1"; mkCC x86 true false true "1"]).
Definition dev358 := ("0059_0003_0001", mkDevice "Horstmann Controls Limited" "ASR-ZW" "Thermostat Receiver" "0059" "0003" "0001" [mkCC x00 false false true "1"; mkCC x20 false false true "1"; mkCC x25 false false true "1"; mkCC x40 false false true "1"; mkCC x72 false false true "1"; mkCC x86 false false true "1"]).
Definition dev359 := ("0059_0001_0003", mkDevice "Horstmann Controls Limited" "HRT4-ZW" "Battery Powered Wall Thermostat" "0059" "0001" "0003" [mkCC x00 false false true "1"; mkCC x20 false false true "1"; mkCC x25 false false true "0"; mkCC x31 false false true "1"; mkCC x40 false false true "0"; mkCC x43 false false true "1"; mkCC x70 false false true "1"; mkCC x72 false false true "1"; mkCC x80 false false true "1"; mkCC x84 false false true "2"; mkCC x85 false false true "1"; mkCC x86 false false true "1"]).
Definition dev360 := ("0059_0004_0001", mkDevice "Horstmann Controls Limited" "SCSC-17" "7 Day Room Thermostat" "0059" "0004" "0001" [mkCC x00 false false true "1"; mkCC x20 false false true "1"; mkCC x25 true false true "0"; mkCC x31 true false true "2"; mkCC x40 false false true "0"; mkCC x42 true false true "1"; mkCC x43 true false true "1"; mkCC x53 true false true "0"; mkCC x70 true false true "1"; mkCC x72 true false true "1"; mkCC x80 true false true "1"; mkCC x84 true false true "2"; mkCC x85 true false true "1"; mkCC x86 true false true "1"; mkCC x8a false false true "0"]).
Definition dev361 := ("0059_000d_0002", mkDevice "Horstmann Controls Limited" "SES 302" "Temperature sensor" "0059" "000D" "0002" [mkCC x00 false false true "1"; mkCC x20 false false true "1"; mkCC x31 false false true "5"; mkCC x60 false false true "2"; mkCC x70 false false true "1"; mkCC x72 false false true "1"; mkCC x80 false false true "1"; mkCC x84 false false true "2"; mkCC x85 false false true "1"; mkCC x86 false false true "1"]).
Definition dev362 := ("0059_0010_0001", mkDevice "Horstmann Controls Limited" "SIR-321" "RF Countdown Timer" "0059" "0010" "0001" [mkCC x00 false false true "1"; mkCC x20 false false true "1"; mkCC x25 false false true "1"; mkCC x31 false false true "1"; mkCC x70 false false true "1"; mkCC x72 false false true "1"; mkCC x85 false false true "1"; mkCC x86 false false true "1"]).
Definition dev363 := ("0059_0010_0002", mkDevice "Horstmann Controls Limited" "SIR-321" "RF Countdown Timer" "0059" "0010" "0002" [mkCC x00 false false true "1"; mkCC x20 false false true "1"; mkCC x25 false false true "1"; mkCC x31 false false true "1"; mkCC x70 false false true "1"; mkCC x72 false false true "1"; mkCC x85 false false true "1"; mkCC x86 false false true "1"]).
Definition dev364 := ("0059_0001_0004", mkDevice "Horstmann Controls Limited" "SRT323" "Secure Z-Wave Room Thermostat" "0059" "0001" "0004" [mkCC x00 false false true "1"; mkCC x20 false false true "1"; mkCC x31 true false true "1"; mkCC x40 true false true "1"; mkCC x42 true false true "1"; mkCC x43 true false true "1"; mkCC x70 true false true "1"; mkCC x72 true false true "1"; mkCC x80 true false true "1"; mkCC x84 true false true "2"; mkCC x85 true false true "1"; mkCC x86 true false true "1"]).
Definition dev365 := ("0059_0003_0002", mkDevice "Horstmann Controls Limited" "SSR-302" "Two Channel Boiler Actuator" "0059" "0003" "0002" [mkCC x00 false false true "1"; mkCC x20 false false true "1"; mkCC x25 false false true "1"; mkCC x40 false false true "1"; mkCC x60 false false true "2"; mkCC x72 false false true "1"; mkCC x86 false false true "1"]).
Definition dev366 := ("0059_000f_0001", mkDevice "Horstmann Controls Limited" "SWM301" "Z-Wave Module for Water Meter" "0059" "000F" "0001" [mkCC x00 false false true "1"; mkCC x20 false false true "1"; mkCC x31 true false true "1"; mkCC x32 true false true "1"; mkCC x56 true false true "1"; mkCC x70 true false true "1"; mkCC x72 true false true "1"; mkCC x80 true false true "1"; mkCC x84 true false true "2"; mkCC x85 true false true "1"; mkCC x86 true false true "1"; mkCC x9c true false true "1"]).
Definition dev367 := ("0230_0003_0001", mkDevice "Alphonsus Tech" "IDL-101" "Z-Wave Lock" "0230" "0003" "0001" [mkCC x00 false false true "1"; mkCC x59 false true false "1"; mkCC x5a true false true "1"; mkCC x5e true false true "2"; mkCC x62 false true false "2"; mkCC x63 false true false "1"; mkCC x70 true false true "1"; mkCC x71 false false true "4"; mkCC x72 true false true "2"; mkCC x73 true false true "1"; mkCC x7a false true false "2"; mkCC x80 true false true "1"; mkCC x85 false true false "2"; mkCC x86 false true false "2"; mkCC x98 true false true "1"]).
Definition dev368 := ("011f_0001_0002", mkDevice "Ingersoll Rand (was Ecolink)" "DWZWAVE1" "Z-Wave Door/Window Sensor" "011F" "0001" "0002" [mkCC x00 false false true "1"; mkCC x20 false false true "1"; mkCC x30 true false true "1"; mkCC x70 true false true "1"; mkCC x71 true false true "2"; mkCC x72 true false true "1"; mkCC x80 true false true "1"; mkCC x84 true false true "2"; mkCC x85 true false true "2"; mkCC x86 true false true "1"]).
Definition dev369 := ("0077_0011_0001", mkDevice "INNOVUS" "00110001" "RAone SmartDimmer" "0077" "0011" "0001" [mkCC x00 false false true "0"; mkCC x20 false false true "1"; mkCC x26 false false false "1"; mkCC x27 false false true "1"; mkCC x28 false false true "1"; mkCC x31 false false true "1"; mkCC x32 false false true "2"; mkCC x70 false false true "1"; mkCC x72 false false true "1"; mkCC x73 false false true "0"; mkCC x75 false false true "1"; mkCC x77 false false true "1"; mkCC x85 false false true "1"]).
Definition dev370 := ("0077_0010_0001", mkDevice "INNOVUS" "SmartPower" "RAone SmartPower" "0077" "0010" "0001" [mkCC x00 false false true "1"; mkCC x20 false false true "1"; mkCC x25 true false true "1"; mkCC x27 true false true "1"; mkCC x28 true false true "1"; mkCC x31 true false true "2"; mkCC x32 true false true "1"; mkCC x72 true false true "1"; mkCC x73 true false true "1"; mkCC x75 true false true "1"; mkCC x77 true false true "1"; mkCC x85 true false true "1"; mkCC x86 true false true "1"]).
Definition dev371 := ("0005_4341_0600", mkDevice "Intermatic" "CA3500" "15 Amp Split-Duplex Receptacle" "0005" "4341" "0600" [mkCC x00 false false true "1"; mkCC x20 false false true "1"; mkCC x26 true false true "1"; mkCC x27 true false true "1"; mkCC x72 true false true "1"; mkCC x73 true false true "1"; mkCC x85 true false true "1"; mkCC x86 true false true "1"; mkCC x91 true false true "0"]).
Definition dev372 := ("0005_4341_3750", mkDevice "Intermatic" "CA3750" "Contactor/Switch" "0005" "4341" "3750" [mkCC x00 false false true "1"; mkCC x20 false false true "1"; mkCC x25 true false true "1"; mkCC x27 true false true "1"; mkCC x60 true false true "1"; mkCC x72 true false true "1"; mkCC x73 true false true "1"; mkCC x86 true false true "1"; mkCC x91 true false true "0"]).
Definition dev373 := ("0005_4341_8900", mkDevice "Intermatic" "CA8900" "Z-Wave Thermostat" "0005" "4341" "8900" [mkCC x00 false false true "1"; mkCC x20 false false true "1"; mkCC x31 true false true "1"; mkCC x40 true false true "1"; mkCC x42 true false true "1"; mkCC x43 true false true "1"; mkCC x72 true false true "1"; mkCC x86 true false true "1"; mkCC x87 true false true "1"]).
Definition dev374 := ("0005_0001_0003", mkDevice "Intermatic" "HA-01C" "In-Wall Dual Receptacle" "0005" "0001" "0003" [mkCC x00 true false true "1"; mkCC x20 true false true "1"; mkCC x25 true false true "1"; mkCC x27 true false true "1"; mkCC x72 true false true "1"; mkCC x86 true false true "1"]).
Definition dev375 := ("0005_0002_0003", mkDevice "Intermatic" "HA02" "Appliance Module" "0005" "0002" "0003" [mkCC x00 false false true "1"; mkCC x20 true false true "1"; mkCC x25 true false true "1"; mkCC x27 true false true "1"; mkCC x72 true false true "1"; mkCC x86 true false true "1"]).
Definition dev376 := ("0005_0003_0003", mkDevice "Intermatic" "HA03" "Lamp Module" "0005" "0003" "0003" [mkCC x00 false false true "1"; mkCC x20 true false true "1"; mkCC x26 true false true "1"; mkCC x27 true false true "1"; mkCC x72 true false true "1"; mkCC x86 true false true "1"]).
Definition dev377 := ("0005_0004_0003", mkDevice "Intermatic" "HA04" "Outdoor Module" "0005" "0004" "0003" [mkCC x00 false false true "1"; mkCC x20 true false true "1"; mkCC x25 true false true "1"; mkCC x27 true false true "1"; mkCC x72 true false true "1"; mkCC x86 true false true "1"]).
Definition dev378 := ("0005_0005_0003", mkDevice "Intermatic" "HA05" "Screw in lamp module" "0005" "0005" "0003" [mkCC x00 false false true "1"; mkCC x20 false false true "1"; mkCC x25 true false true "1"; mkCC x27 true false true "1"; mkCC x72 true false true "1"; mkCC x86 true false true "1"]).
Definition dev379 := ("0005_4841_0020", mkDevice "Intermatic" "HA-20" "Dimmer Switch" "0005" "4841" "0020" [mkCC x00 false false true "1"; mkCC x20 false false true "1"; mkCC x26 true false true "1"; mkCC x27 true false true "1"; mkCC x72 true false true "1"; mkCC x73 true false true "1"; mkCC x85 true false true "1"; mkCC x86 true false true "1"]).
Definition dev380 := ("0005_4341_3000", mkDevice "Intermatic" "CA3000" "Wall Switch" "0005" "4341" "3000" [mkCC x00 false false true "1"; mkCC x20 false false true "1"; mkCC x25 true false true "1"; mkCC x27 true false true "1"; mkCC x72 true false true "1"; mkCC x73 true false true "1"; mkCC x85 true false true "1"; mkCC x86 true false true "1"; mkCC x91 true false true "0"]).
Definition dev381 := ("0214_0002_0002", mkDevice "Kaipule Technology Co., Ltd." "ES61" "Smoke Sensor" "0214" "0002" "0002" [mkCC x00 false false true "1"; mkCC x20 false false true "1"; mkCC x30 true false true "0"; mkCC x59 true false true "1"; mkCC x5a true false true "1"; mkCC x5e true false true "1"; mkCC x71 true false true "4"; mkCC x72 true false true "1"; mkCC x73 true false true "1"; mkCC x80 true false true "1"; mkCC x84 true false true "2"; mkCC x85 true false true "2"; mkCC x86 true false true "2"]).
Definition dev382 := ("0114_b005_3b60", mkDevice "Kichler" "15DC200" "200W Design Pro LED Controller" "0114" "B005" "3B60" [mkCC x00 false false true "1"; mkCC x20 true false true "1"; mkCC x25 true false true "1"; mkCC x27 true false true "1"; mkCC x60 true false true "2"; mkCC x70 true false true "1"; mkCC x72 true false true "1"; mkCC x86 true false true "1"; mkCC x8a true false true "1"; mkCC x8b true false true "1"; mkCC x8c true false true "0"]).
Definition dev383 := ("0090_0001_0001", mkDevice "Black & Decker" "914TRL" "Touchpad Electronic Deadbolt" "0090" "0001" "0001" [mkCC x00 false true true "1"; mkCC x20 false true true "1"; mkCC x4c false true false "0"; mkCC x4e false true false "0"; mkCC x62 false true true "1"; mkCC x63 false true true "1"; mkCC x70 false true true "1"; mkCC x71 false true true "1"; mkCC x72 true true true "1"; mkCC x75 false true true "1"; mkCC x76 false false true "1"; mkCC x80 false true true "1"; mkCC x85 false true true "1"; mkCC x86 true true true "1"; mkCC x8b false true false "0"; mkCC x98 true false true "1"]).
Definition dev384 := ("001d_3401_0001", mkDevice "Leviton" "DZ15S" "Scene Capable Push On/Off" "001D" "3401" "0001" [mkCC x00 false false true "1"; mkCC x20 true false true "1"; mkCC x25 true false true "1"; mkCC x27 true false true "1"; mkCC x2b true false true "1"; mkCC x2c true false true "1"; mkCC x59 true false true "1"; mkCC x5a true false true "1"; mkCC x5e true false true "1"; mkCC x70 true false true "1"; mkCC x72 true false true "1"; mkCC x73 true false true "1"; mkCC x7a true false true "1"; mkCC x82 false false true "0"; mkCC x85 true false true "2"; mkCC x86 true false true "2"]).
Definition dev385 := ("001d_3201_0001", mkDevice "Leviton" "DZ6HD" "600W Dimmer" "001D" "3201" "0001" [mkCC x00 false false true "1"; mkCC x20 false false true "1"; mkCC x26 false false true "3"; mkCC x27 false false true "1"; mkCC x2b false false true "1"; mkCC x2c false false true "1"; mkCC x59 false false true "1"; mkCC x5a false false true "1"; mkCC x5e false false true "1"; mkCC x70 false false true "1"; mkCC x72 false false true "1"; mkCC x73 false false true "1"; mkCC x7a false false true "1"; mkCC x82 false false true "0"; mkCC x85 false false true "2"; mkCC x86 false false true "2"]).
Definition dev386 := ("001d_1b03_0334", mkDevice "Leviton" "DZMX1-1LZ" "Scene Capable Push On/Off" "001D" "1B03" "0334" [mkCC x00 false false true "1"; mkCC x20 false false true "1"; mkCC x26 false false true "1"; mkCC x27 false false true "0"; mkCC x2b false false true "1"; mkCC x72 false false true "1"; mkCC x86 false false true "1"]).
Definition dev387 := ("001d_1a02_0334", mkDevice "Leviton" "DZPA1" "Plug-in Appliance Module" "001D" "1A02" "0334" [mkCC x00 false false true "1"; mkCC x20 false false true "1"; mkCC x25 true false true "1"; mkCC x27 true false true "1"; mkCC x2b true false true "1"; mkCC x72 true false true "1"; mkCC x77 true false true "1"; mkCC x86 true false true "1"]).
Definition dev388 := ("001d_3601_0001", mkDevice "Leviton" "DZPA1" "Plug-in Appliance Module" "001D" "3601" "0001" [mkCC x00 false false true "1"; mkCC x20 false false true "1"; mkCC x25 true false true "1"; mkCC x27 true false true "1"; mkCC x2b true false true "1"; mkCC x72 true false true "1"; mkCC x77 true false true "1"; mkCC x86 true false true "1"]).
Definition dev389 := ("001d_3501_0001", mkDevice "Leviton" "DZPD3-2" "Plug-In Dimmer" "001D" "3501" "0001" [mkCC x00 false false true "1"; mkCC x20 true false true "1"; mkCC x26 true false true "3"; mkCC x27 true false true "1"; mkCC x2b true false true "1"; mkCC x2c true false true "1"; mkCC x59 true false true "1"; mkCC x5a true false true "1"; mkCC x5e true false true "1"; mkCC x70 true false true "1"; mkCC x72 true false true "1"; mkCC x73 true false true "1"; mkCC x7a true false true "1"; mkCC x85 true false true "2"; mkCC x86 true false true "2"]).
Definition dev390 := ("001d_1902_0334", mkDevice "Leviton" "DZPD3" "Lamp Module" "001D" "1902" "0334" [mkCC x00 false false true "1"; mkCC x20 false false true "1"; mkCC x26 true false true "1"; mkCC x27 true false true "1"; mkCC x2b true false true "1"; mkCC x2c true false true "0"; mkCC x72 true false true "1"; mkCC x73 true false true "1"; mkCC x77 true false true "1"; mkCC x86 true false true "1"; mkCC x91 true false true "0"]).
Definition dev391 := ("001d_1d04_0334", mkDevice "Leviton" "DZR15" "Scene Capable Receptacle" "001D" "1D04" "0334" [mkCC x00 false false true "1"; mkCC x20 false false true "1"; mkCC x25 true false true "1"; mkCC x27 true false true "1"; mkCC x2b true false true "1"; mkCC x2c true false true "0"; mkCC x72 true false true "1"; mkCC x73 true false true "1"; mkCC x77 true false true "1"; mkCC x86 true false true "1"; mkCC x91 true false true "0"]).
Definition dev392 := ("001d_1c02_0334", mkDevice "Leviton" "DZS15" "Scene Capable Push On/Off" "001D" "1C02" "0334" [mkCC x00 false false true "1"; mkCC x20 false false true "1"; mkCC x22 false false true "0"; mkCC x25 false false true "1"; mkCC x27 false false true "1"; mkCC x2b false false true "1"; mkCC x72 false false true "1"; mkCC x77 false false true "1"; mkCC x86 false false true "1"]).
Definition dev393 := ("001d_0201_0206", mkDevice "Leviton" "RZP03" "Scene Capable Plug-In Lamp Dimming Module" "001D" "0201" "0206" [mkCC x20 false false false "1"; mkCC x26 false false false "1"; mkCC x27 false false false "1"; mkCC x2b false false false "1"; mkCC x2c false false false "1"; mkCC x72 false false false "1"; mkCC x73 false false false "1"; mkCC x77 false false false "1"; mkCC x82 false false false "1"; mkCC x85 false false false "1"; mkCC x86 false false false "1"; mkCC x91 false false false "1"]).
Definition dev394 := ("001d_1102_0243", mkDevice "Leviton" "VRCS2-MRX" "Vizia RF + 2-Button Scene Controller with Switches " "001D" "1102" "0243" [mkCC x00 false false true "1"; mkCC x20 false false true "1"; mkCC x25 false false true "0"; mkCC x2b false false false "0"; mkCC x2c false false false "0"; mkCC x72 false false true "1"; mkCC x73 false false true "0"; mkCC x77 false false true "1"; mkCC x82 false false true "1"; mkCC x85 false false true "1"; mkCC x86 false false true "1"; mkCC x91 false false true "1"]).
Definition dev395 := ("001d_0e01_0334", mkDevice "Leviton" "VRE06" "Electronic Low Voltage Scene Capable Dimmer" "001D" "0E01" "0334" [mkCC x00 false false true "1"; mkCC x20 false false true "1"; mkCC x26 true false true "1"; mkCC x27 true false true "1"; mkCC x2b true false true "1"; mkCC x2c true false true "1"; mkCC x72 true false true "1"; mkCC x73 true false true "1"; mkCC x77 true false true "1"; mkCC x85 true false true "1"; mkCC x86 true false true "1"; mkCC x91 true false true "0"]).
Definition dev396 := ("001d_1001_0334", mkDevice "Leviton" "Leviton VRF01-1LZ" "Z‑Wave Quiet Fan Speed Control" "001D" "1001" "0334" [mkCC x00 false false true "1"; mkCC x20 false false true "1"; mkCC x22 false false true "0"; mkCC x26 true false true "1"; mkCC x27 true false true "1"; mkCC x2b true false true "1"; mkCC x2c true false true "1"; mkCC x72 true false true "1"; mkCC x73 true false true "1"; mkCC x77 true false true "1"; mkCC x85 true false true "1"; mkCC x86 true false true "1"; mkCC x91 true false true "0"]).
Definition dev397 := ("001d_1001_0209", mkDevice "Leviton" "VRF01" "Scene Capable Quiet Fan Speed Control" "001D" "1001" "0209" [mkCC x00 false false true "1"; mkCC x20 false false true "1"; mkCC x26 true false true "1"; mkCC x27 true false true "1"; mkCC x2b true false true "1"; mkCC x2c true false true "1"; mkCC x72 true false true "1"; mkCC x73 true false true "1"; mkCC x77 true false true "1"; mkCC x85 true false true "1"; mkCC x86 true false true "1"; mkCC x91 true false true "0"]).
Definition dev398 := ("001d_0401_0209", mkDevice "Leviton" "VRI06" "Incandescent Scene Capable Dimmer" "001D" "0401" "0209" [mkCC x00 false false true "1"; mkCC x20 false false true "1"; mkCC x26 false false true "1"; mkCC x27 false false true "1"; mkCC x2b false false true "1"; mkCC x2c false false true "1"; mkCC x53 false false true "1"; mkCC x72 false false true "1"; mkCC x73 false false true "1"; mkCC x77 false false true "1"; mkCC x82 false false true "1"; mkCC x85 false false true "1"; mkCC x86 false false true "1"; mkCC x91 false false true "1"]).
Definition dev399 := ("001d_0401_0334", mkDevice "Leviton" "VRI06" "Incandescent Scene Capable Dimmer" "001D" "0401" "0334" [mkCC x00 false false true "1"; mkCC x20 false false true "1"; mkCC x26 false false true "1"; mkCC x27 false false true "1"; mkCC x2b false false true "1"; mkCC x2c false false true "1"; mkCC x53 false false true "1"; mkCC x72 false false true "1"; mkCC x73 false false true "1"; mkCC x77 false false true "1"; mkCC x82 false false true "1"; mkCC x85 false false true "1"; mkCC x86 false false true "1"; mkCC x91 false false true "1"]).
Definition dev400 := ("001d_0602_0334", mkDevice "Leviton" "VRMX1-1LZ" "Scene Capable Push On/Off Dimmer" "001D" "0602" "0334" [mkCC x00 false false true "1"; mkCC x20 false false true "1"; mkCC x26 true false true "1"; mkCC x27 true false true "1"; mkCC x2b true false true "1"; mkCC x2c true false true "1"; mkCC x30 false false true "0"; mkCC x72 true false true "1"; mkCC x73 true false true "1"; mkCC x77 true false true "1"; mkCC x85 true false true "1"; mkCC x86 true false true "1"; mkCC x91 true false true "0"]).
Definition dev401 := ("001d_0202_030b", mkDevice "Leviton" "VRP03" "300W Scene Capable Plug-In Lamp Dimming Module" "001D" "0202" "030B" [mkCC x00 false false true "1"; mkCC x20 false false true "1"; mkCC x26 false false true "1"; mkCC x27 false false true "1"; mkCC x2b false false true "1"; mkCC x2c false false true "1"; mkCC x72 false false true "1"; mkCC x73 false false true "1"; mkCC x77 false false true "1"; mkCC x82 false false true "1"; mkCC x85 false false true "1"; mkCC x86 false false true "1"; mkCC x91 false false true "1"; mkCC xef false false true "1"]).
Definition dev402 := ("001d_1805_0334", mkDevice "Leviton" "VRPA1" "Vizia RF + Scene Capable Plug-in Module" "001D" "1805" "0334" [mkCC x00 false false true "1"; mkCC x20 false false true "1"; mkCC x25 false false true "1"; mkCC x27 false false true "1"; mkCC x2b false false true "1"; mkCC x2c false false true "1"; mkCC x72 false false true "1"; mkCC x73 false false true "1"; mkCC x77 false false true "1"; mkCC x85 false false true "1"; mkCC x86 false false true "1"]).
Definition dev403 := ("001d_1706_0334", mkDevice "Leviton" "VRPD3" "Scene Capable Plug-in Dimmer" "001D" "1706" "0334" [mkCC x00 false false true "1"; mkCC x20 false false true "1"; mkCC x22 false false true "0"; mkCC x26 false false true "1"; mkCC x27 false false true "0"; mkCC x2b false false true "1"; mkCC x32 false false true "0"; mkCC x72 false false true "1"; mkCC x85 false false true "1"; mkCC x86 false false true "1"]).
Definition dev404 := ("001d_0f01_0209", mkDevice "Leviton" "VRS05" "Scene Capable Switch" "001D" "0F01" "0209" [mkCC x20 false false false "1"; mkCC x25 false false false "1"; mkCC x27 false false false "1"; mkCC x2b false false false "1"; mkCC x2c false false false "1"; mkCC x72 false false false "1"; mkCC x73 false false false "1"; mkCC x77 false false false "1"; mkCC x82 false false false "1"; mkCC x85 false false false "1"; mkCC x86 false false false "1"; mkCC x91 false false false "1"]).
Definition dev405 := ("001d_0301_0209", mkDevice "Leviton" "VRS15" "Scene Capable Push On/Off" "001D" "0301" "0209" [mkCC x00 false false true "1"; mkCC x20 false false true "1"; mkCC x25 true false true "1"; mkCC x27 true false true "1"; mkCC x2b true false true "1"; mkCC x2c true false true "1"; mkCC x72 true false true "1"; mkCC x73 true false true "1"; mkCC x77 true false true "1"; mkCC x85 true false true "1"; mkCC x86 true false true "1"; mkCC x91 true false true "0"]).
Definition dev406 := ("001d_0301_0334", mkDevice "Leviton" "VRS15" "Scene Capable Push On/Off" "001D" "0301" "0334" [mkCC x00 false false true "1"; mkCC x20 false false true "1"; mkCC x25 true false true "1"; mkCC x27 true false true "1"; mkCC x2b true false true "1"; mkCC x2c true false true "1"; mkCC x72 true false true "1"; mkCC x73 true false true "1"; mkCC x77 true false true "1"; mkCC x85 true false true "1"; mkCC x86 true false true "1"; mkCC x91 true false true "0"]).
Definition dev407 := ("014f_5246_3133", mkDevice "Linear Corp" "FS20Z" "Isolated Contact Fixture Module" "014F" "5246" "3133" [mkCC x00 false false true "1"; mkCC x20 false false true "1"; mkCC x25 false false true "1"; mkCC x2b false false true "1"; mkCC x70 false false true "1"; mkCC x72 false false true "1"; mkCC x86 false false true "1"]).
Definition dev408 := ("014f_4742_3030", mkDevice "Linear Corp" "GB00Z" "Glass Break Detector" "014F" "4742" "3030" [mkCC x00 false false true "1"; mkCC x20 true false true "1"; mkCC x5a true false true "1"; mkCC x72 true false true "1"; mkCC x80 true false true "1"; mkCC x82 true false true "1"; mkCC x84 true false true "2"; mkCC x85 true false true "1"; mkCC x86 true false true "1"; mkCC x87 true false true "1"; mkCC x9c true false true "1"]).
Definition dev409 := ("014f_4754_3038", mkDevice "Linear Corp" "LB60Z-1" "Dimmable LED Light Bulb" "014F" "4754" "3038" [mkCC x00 false false true "1"; mkCC x20 false false true "1"; mkCC x25 true false false "1"; mkCC x26 true false true "1"; mkCC x27 true false true "1"; mkCC x59 true false true "0"; mkCC x5a true false true "1"; mkCC x5e true false true "1"; mkCC x70 true false true "1"; mkCC x72 true false true "1"; mkCC x73 true false true "1"; mkCC x7a true false true "0"; mkCC x85 true false true "1"; mkCC x86 true false true "1"]).
Definition dev410 := ("014f_4744_3030", mkDevice "Linear Corp" "NGD00Z-4" "Garage Door Controller" "014F" "4744" "3030" [mkCC x00 false false true "1"; mkCC x20 false false true "1"; mkCC x5a false false true "1"; mkCC x66 false true false "1"; mkCC x71 false true false "4"; mkCC x72 false false true "1"; mkCC x86 false false true "1"]).
Definition dev411 := ("014f_4744_3530", mkDevice "Linear Corp" "NGD00Z-4" "Garage Door Controller" "014F" "4744" "3530" [mkCC x00 false false true "1"; mkCC x20 false false true "1"; mkCC x5a false false true "1"; mkCC x66 false true false "1"; mkCC x71 false true false "4"; mkCC x72 false false true "1"; mkCC x86 false false true "1"]).
Definition dev412 := ("014f_4450_3030", mkDevice "Linear Corp" "PD300Z-2" "Plug-in Wall Dimmer" "014F" "4450" "3030" [mkCC x00 false false true "1"; mkCC x20 false false true "1"; mkCC x26 true false true "1"; mkCC x27 true false true "1"; mkCC x2b true false true "1"; mkCC x2c true false true "0"; mkCC x70 true false true "1"; mkCC x72 true false true "1"; mkCC x73 true false true "1"; mkCC x86 true false true "1"]).
Definition dev413 := ("014f_5250_3030", mkDevice "Linear Corp" "PS15Z" "Plug-In Appliance Module" "014F" "5250" "3030" [mkCC x00 false false true "1"; mkCC x20 false false true "1"; mkCC x25 true false true "1"; mkCC x27 true false true "1"; mkCC x2b true false true "1"; mkCC x2c true false true "1"; mkCC x70 true false true "1"; mkCC x72 true false true "1"; mkCC x73 true false true "1"; mkCC x75 true false true "1"; mkCC x86 true false true "1"]).
Definition dev414 := ("014f_5442_5431", mkDevice "Linear Corp" "TBZ48" "Thermostat" "014F" "5442" "5431" [mkCC x00 false false true "1"; mkCC x20 false false true "1"; mkCC x2b true false true "1"; mkCC x2c true false true "1"; mkCC x31 true false true "1"; mkCC x40 true false true "1"; mkCC x42 true false true "1"; mkCC x43 true false true "1"; mkCC x44 true false true "1"; mkCC x45 true false true "1"; mkCC x70 true false true "1"; mkCC x72 true false true "1"; mkCC x73 true false true "1"; mkCC x80 true false true "1"; mkCC x81 true false true "1"; mkCC x85 true false true "1"; mkCC x86 true false true "1"; mkCC x8f true false true "1"]).
Definition dev415 := ("014f_2009_0903", mkDevice "Linear Corp" "WA105DBZ-1" "Siren & Strobe" "014F" "2009" "0903" [mkCC x00 false false true "1"; mkCC x20 false false true "1"; mkCC x25 true false true "1"; mkCC x70 true false true "1"; mkCC x72 true false true "1"; mkCC x86 true false true "1"]).
Definition dev416 := ("014f_2005_0503", mkDevice "Linear Corp" "WA105DBZ" "Siren" "014F" "2005" "0503" [mkCC x00 false false true "1"; mkCC x20 false false true "1"; mkCC x25 false false true "1"; mkCC x70 false false true "1"; mkCC x72 false false true "1"; mkCC x80 false false true "1"; mkCC x86 false false true "1"]).
Definition dev417 := ("014f_2001_0102", mkDevice "Linear Corp" "WADWAZ-1" "Door/Windows Sensor" "014F" "2001" "0102" [mkCC x00 false false true "1"; mkCC x20 false false true "1"; mkCC x30 false false true "1"; mkCC x71 false false true "1"; mkCC x72 false false true "1"; mkCC x80 false false true "1"; mkCC x84 false false true "2"; mkCC x85 false false true "1"; mkCC x86 false false true "1"]).
Definition dev418 := ("014f_2002_0203", mkDevice "Linear Corp" "WAPIRZ-1" "PIR Motion Detector" "014F" "2002" "0203" [mkCC x00 false false true "1"; mkCC x20 false false true "1"; mkCC x30 false false true "1"; mkCC x31 false false true "4"; mkCC x70 false false true "1"; mkCC x71 false false true "1"; mkCC x72 false false true "1"; mkCC x80 false false true "1"; mkCC x84 false false true "2"; mkCC x85 false false true "1"; mkCC x86 false false true "1"]).
Definition dev419 := ("014f_4457_3034", mkDevice "Linear Corp" "WD500Z-1" "Wall Dimmer Switch" "014F" "4457" "3034" [mkCC x00 false false true "1"; mkCC x20 false false true "1"; mkCC x26 true false true "1"; mkCC x27 true false true "1"; mkCC x2b true false true "1"; mkCC x2c true false true "0"; mkCC x70 true false true "1"; mkCC x72 true false true "1"; mkCC x73 true false true "1"; mkCC x86 true false true "1"]).
Definition dev420 := ("014f_5252_3530", mkDevice "Linear Corp" "WO15Z" "Single Wall Outlet" "014F" "5252" "3530" [mkCC x00 false false true "1"; mkCC x20 false false true "1"; mkCC x25 true false true "1"; mkCC x27 true false true "1"; mkCC x2b true false true "1"; mkCC x2c true false true "0"; mkCC x70 true false true "1"; mkCC x72 true false true "1"; mkCC x73 true false true "1"; mkCC x75 true false true "1"; mkCC x86 true false true "1"]).
Definition dev421 := ("014f_5257_3533", mkDevice "Linear Corp" "WS15Z-1" "Wall Mounted Switch" "014F" "5257" "3533" [mkCC x00 false false true "1"; mkCC x20 false false true "1"; mkCC x22 false false true "0"; mkCC x25 false false true "1"; mkCC x26 false false true "0"; mkCC x27 false false true "1"; mkCC x2b false false true "1"; mkCC x70 false false true "1"; mkCC x72 false false true "1"; mkCC x80 false false true "0"; mkCC x86 false false true "1"]).
Definition dev422 := ("014f_5457_3033", mkDevice "Linear Corp" "WT00Z-1" "3-Way Wall Accessory Switch" "014F" "5457" "3033" []).
Definition dev423 := ("0234_0002_010a", mkDevice "Logic Home Control" "ZHC5010" "FUGA Wall 4-way Switch with LED + Relay" "0234" "0002" "010A" [mkCC x00 false false true "1"; mkCC x20 false false true "1"; mkCC x25 true false true "1"; mkCC x26 true false true "3"; mkCC x28 true false true "1"; mkCC x59 true false true "1"; mkCC x5a true false true "1"; mkCC x5b true false true "2"; mkCC x5e true false true "1"; mkCC x60 true false true "2"; mkCC x70 true false true "1"; mkCC x72 true false true "1"; mkCC x73 true false true "1"; mkCC x7a true false true "1"; mkCC x85 true false true "2"; mkCC x86 true false true "2"; mkCC x87 true false true "1"; mkCC x8e true false true "3"]).
Definition dev424 := ("0234_0003_010a", mkDevice "Logic Home Control" "ZHC5010" "FUGA Wall 4-way Switch with LED + Relay" "0234" "0003" "010A" [mkCC x00 false false true "1"; mkCC x20 false false true "1"; mkCC x25 true false true "1"; mkCC x26 true false true "3"; mkCC x28 true false true "1"; mkCC x59 true false true "1"; mkCC x5a true false true "1"; mkCC x5b true false true "2"; mkCC x5e true false true "1"; mkCC x60 true false true "2"; mkCC x70 true false true "1"; mkCC x72 true false true "1"; mkCC x73 true false true "1"; mkCC x7a true false true "1"; mkCC x85 true false true "2"; mkCC x86 true false true "2"; mkCC x87 true false true "1"; mkCC x8e true false true "3"]).
Definition dev425 := ("015f_0000_0000", mkDevice "McoHome Technology Co., Ltd" "MH3700-HP" "Programmable Thermostat" "015F" "0000" "0000" []).
Definition dev426 := ("015f_0905_0201", mkDevice "McoHome Technology Co., Ltd" "MH9-CO2-WD" "CO2 Monitor Air quality detector" "015F" "0905" "0201" [mkCC x31 false false true "5"; mkCC x70 false false true "1"; mkCC x71 false false true "4"; mkCC x72 false false true "1"; mkCC x85 false false true "1"; mkCC x86 false false true "1"; mkCC x9e false false true "1"]).
Definition dev427 := ("015f_4121_1302", mkDevice "McoHome Technology Co., Ltd" "MCO_TPS412" "Touch Panel Switch 2 Channel" "015F" "4121" "1302" [mkCC x00 false false true "1"; mkCC x20 false false true "1"; mkCC x25 false false true "1"; mkCC x27 false false true "1"; mkCC x60 false false true "2"; mkCC x70 false false true "1"; mkCC x72 false false true "1"; mkCC x85 false false true "2"; mkCC x86 false false true "1"; mkCC x8e false false true "2"]).
Definition dev428 := ("015f_0a05_0100", mkDevice "McoHome Technology Co., Ltd" "MH10-PM2.5-WA" "PM2.5 Monitor" "015F" "0A05" "0100" [mkCC x00 false false true "1"; mkCC x20 false false true "0"; mkCC x31 false false true "5"; mkCC x72 false false true "1"; mkCC x85 false false true "1"; mkCC x86 false false true "1"]).
Definition dev429 := ("015f_0a05_0201", mkDevice "McoHome Technology Co., Ltd" "MH10-PM2.5-WA" "PM2.5 Monitor" "015F" "0A05" "0201" [mkCC x00 false false true "1"; mkCC x20 false false true "0"; mkCC x31 false false true "5"; mkCC x72 false false true "1"; mkCC x85 false false true "1"; mkCC x86 false false true "1"]).
Definition dev430 := ("015f_0702_3102", mkDevice "McoHome Technology Co., Ltd" "MH7" "Water/Electrical Heating Thermostat" "015F" "0702" "3102" [mkCC x00 false false true "1"; mkCC x20 false false true "1"; mkCC x31 true false true "5"; mkCC x40 true false true "1"; mkCC x42 true false true "1"; mkCC x43 true false true "1"; mkCC x72 true false true "1"; mkCC x85 true false true "1"; mkCC x86 true false true "1"]).
Definition dev431 := ("015f_0702_5102", mkDevice "McoHome Technology Co., Ltd" "MH7" "Water/Electrical Heating Thermostat" "015F" "0702" "5102" [mkCC x00 false false true "1"; mkCC x20 false false true "1"; mkCC x31 true false true "5"; mkCC x40 true false true "1"; mkCC x42 true false true "1"; mkCC x43 true false true "1"; mkCC x72 true false true "1"; mkCC x85 true false true "1"; mkCC x86 true false true "1"]).
Definition dev432 := ("015f_0801_3102", mkDevice "McoHome Technology Co., Ltd" "MH8-FC" "Fan Coil Thermostat" "015F" "0801" "3102" [mkCC x00 false false true "1"; mkCC x20 false false true "1"; mkCC x31 true false true "5"; mkCC x40 true false true "1"; mkCC x42 true false true "1"; mkCC x43 true false true "1"; mkCC x44 true false true "1"; mkCC x45 true false true "1"; mkCC x72 true false true "1"; mkCC x85 true false true "1"; mkCC x86 true false true "1"]).
Definition dev433 := ("015f_3102_0202", mkDevice "McoHome Technology Co., Ltd" "MH-S312" "Two Way Switch" "015F" "3102" "0202" [mkCC x00 false false true "1"; mkCC x20 false false true "1"; mkCC x25 true false true "1"; mkCC x27 true false true "1"; mkCC x60 true false true "2"; mkCC x70 true false true "0"; mkCC x72 true false true "1"; mkCC x85 true false true "1"; mkCC x86 true false true "1"; mkCC x8e true false true "1"]).
Definition dev434 := ("015f_3102_0204", mkDevice "McoHome Technology Co., Ltd" "MH-S314" "Four Way Switch" "015F" "3102" "0204" [mkCC x00 false false true "1"; mkCC x20 false false true "1"; mkCC x25 true false true "1"; mkCC x27 true false true "1"; mkCC x60 true false true "2"; mkCC x70 true false true "0"; mkCC x72 true false true "1"; mkCC x85 true false true "1"; mkCC x86 true false true "1"; mkCC x8e true false true "1"]).
Definition dev435 := ("015f_3141_1302", mkDevice "McoHome Technology Co., Ltd" "MH-S314" "Four Way Switch" "015F" "3141" "1302" [mkCC x00 false false true "1"; mkCC x20 false false true "1"; mkCC x25 true false true "1"; mkCC x27 true false true "1"; mkCC x60 true false true "2"; mkCC x70 true false true "0"; mkCC x72 true false true "1"; mkCC x85 true false true "1"; mkCC x86 true false true "1"; mkCC x8e true false true "1"]).
Definition dev436 := ("015f_4102_0201", mkDevice "McoHome Technology Co., Ltd" "MH-S411" "Touch Panel Switch (Single)" "015F" "4102" "0201" [mkCC x00 false false true "1"; mkCC x20 false false true "1"; mkCC x25 false false true "1"; mkCC x27 false false true "1"; mkCC x72 false false true "1"; mkCC x85 false false true "1"; mkCC x86 false false true "1"]).
Definition dev437 := ("015f_4102_0202", mkDevice "McoHome Technology Co., Ltd" "MH-S412" "Touch Panel Switch (Dual)" "015F" "4102" "0202" [mkCC x00 false false true "1"; mkCC x20 false false true "1"; mkCC x25 false false true "1"; mkCC x27 false false true "1"; mkCC x60 false false true "2"; mkCC x70 false false true "1"; mkCC x72 false false true "1"; mkCC x85 false false true "1"; mkCC x86 false false true "1"]).
Definition dev438 := ("015f_4111_1302", mkDevice "McoHome Technology Co., Ltd" "TPS411" "Touch Panel Switch 1 Button" "015F" "4111" "1302" [mkCC x00 false false true "1"; mkCC x20 false false true "1"; mkCC x25 false false true "1"; mkCC x27 false false true "1"; mkCC x60 false false true "2"; mkCC x70 false false true "1"; mkCC x72 false false true "1"; mkCC x85 false false true "2"; mkCC x86 false false true "1"; mkCC x8e false false true "2"]).
Definition dev439 := ("007a_0001_0002", mkDevice "Merten" "5051xx" "Radio Push-button CONNECT, 1f" "007A" "0001" "0002" []).
Definition dev440 := ("007a_8001_8001", mkDevice "Merten" "507001" "Switch Wall Insert 1 Gang" "007A" "8001" "8001" [mkCC x00 false false true "1"; mkCC x20 false false true "1"; mkCC x25 true false true "1"; mkCC x27 true false true "1"; mkCC x28 true false true "1"; mkCC x70 true false true "1"; mkCC x72 true false true "1"; mkCC x75 true false true "2"; mkCC x85 true false true "1"; mkCC x86 true false true "1"]).
Definition dev441 := ("007a_8001_8002", mkDevice "Merten" "507501" "Merten Connect  Flush-mounted switch" "007A" "8001" "8002" [mkCC x00 false false true "1"; mkCC x20 false false true "1"; mkCC x25 false false true "1"; mkCC x27 false false true "1"; mkCC x28 false false true "1"; mkCC x70 false false true "1"; mkCC x72 false false true "1"; mkCC x75 false false true "2"; mkCC x85 false false true "1"; mkCC x86 false false true "1"]).
Definition dev442 := ("007a_8001_8003", mkDevice "Merten" "507601" "Dual Pole Wall Switch" "007A" "8001" "8003" [mkCC x25 false false false "0"]).
Definition dev443 := ("007a_4003_0002", mkDevice "Merten" "507900" "Wall Dimmer Module - Flush Mounted " "007A" "4003" "0002" [mkCC x00 false false true "1"; mkCC x20 false false true "1"; mkCC x26 true false true "1"; mkCC x27 true false true "1"; mkCC x29 true false true "1"; mkCC x70 true false true "1"; mkCC x72 true false true "1"; mkCC x75 true false true "2"; mkCC x85 true false true "1"; mkCC x86 true false true "1"; mkCC x8e true false true "1"]).
Definition dev444 := ("007a_0002_0001", mkDevice "Merten" "5082xx" "Battery Powered Wall Controller MOVE" "007A" "0002" "0001" [mkCC x00 false false true "1"; mkCC x20 false false true "1"; mkCC x70 true false true "1"; mkCC x72 true false true "1"; mkCC x85 true false true "1"; mkCC x86 true false true "1"; mkCC x8e true false true "1"]).
Definition dev445 := ("007a_4005_0001", mkDevice "Merten" "509519" "Merten Radio Argus 220 Connect Movement Detector" "007A" "4005" "0001" [mkCC x00 false false true "1"; mkCC x20 false false true "1"; mkCC x25 true false true "1"; mkCC x60 true false true "2"; mkCC x70 true false true "1"; mkCC x72 true false true "1"; mkCC x75 true false true "2"; mkCC x85 true false true "1"; mkCC x86 true false true "1"; mkCC x8e true false true "1"]).
Definition dev446 := ("007a_4004_0001", mkDevice "Merten" "50x5xx" "roller shutter push-button" "007A" "4004" "0001" [mkCC x00 false false true "1"; mkCC x20 false false true "1"; mkCC x26 true false true "1"; mkCC x31 false false true "1"; mkCC x50 false false true "1"; mkCC x60 false false true "2"; mkCC x70 false false true "1"; mkCC x72 false false true "1"; mkCC x75 false false true "2"; mkCC x85 false false true "1"; mkCC x86 false false true "1"; mkCC x9e false false true "1"]).
Definition dev447 := ("0178_4442_3130", mkDevice "Nexia Home Intelligence" "DB100Z" "Doorbell" "0178" "4442" "3130" [mkCC x00 false false true "1"; mkCC x20 false false true "1"; mkCC x59 true false true "0"; mkCC x5a true false true "1"; mkCC x5e true false true "1"; mkCC x70 true false true "1"; mkCC x71 true false true "3"; mkCC x72 true false true "1"; mkCC x73 true false true "1"; mkCC x7a true false true "0"; mkCC x80 true false true "1"; mkCC x84 true false true "2"; mkCC x85 true false true "1"; mkCC x86 true false true "1"]).
Definition dev448 := ("0165_0001_0001", mkDevice "ID-RF" "ASP-3-1" "Smart Plug" "0165" "0001" "0001" [mkCC x00 false false true "1"; mkCC x20 false false true "1"; mkCC x25 true false true "1"; mkCC x27 true false true "1"; mkCC x59 true false true "1"; mkCC x5a true false true "1"; mkCC x5e true false true "1"; mkCC x70 true false true "1"; mkCC x71 true false true "3"; mkCC x72 true false true "1"; mkCC x73 true false true "1"; mkCC x75 true false true "2"; mkCC x85 true false true "1"; mkCC x86 true false true "2"; mkCC x87 true false true "1"]).
Definition dev449 := ("0165_0002_0001", mkDevice "ID-RF" "CRC-3100" "Octon Remote Control" "0165" "0002" "0001" [mkCC x00 false false true "1"; mkCC x20 false false true "1"; mkCC x2b false false false "1"; mkCC x59 true false true "0"; mkCC x5a true false true "1"; mkCC x5b true false true "2"; mkCC x5e true false true "1"; mkCC x70 true false true "1"; mkCC x72 true false true "1"; mkCC x73 true false true "1"; mkCC x80 true false true "1"; mkCC x84 true false true "2"; mkCC x85 true false true "1"; mkCC x86 true false true "1"]).
Definition dev450 := ("0165_0002_0003", mkDevice "ID-RF" "CWS-3101" "Wall Switch" "0165" "0002" "0003" [mkCC x00 false false true "1"; mkCC x20 false false true "1"; mkCC x2b false false false "1"; mkCC x5b false false false "2"; mkCC x70 false false true "1"; mkCC x72 false false true "1"; mkCC x80 false false true "1"; mkCC x84 false false true "2"; mkCC x85 false false true "1"; mkCC x86 false false true "1"]).
Definition dev451 := ("0165_0001_0003", mkDevice "ID-RF" "MSP-3-1-X1" " Z-Wave Plus Micro Smart Plug ON/OFF" "0165" "0001" "0003" [mkCC x00 false false true "1"; mkCC x20 false false true "1"; mkCC x25 true false true "1"; mkCC x27 true false true "1"; mkCC x32 true false true "3"; mkCC x59 true false true "1"; mkCC x5a true false true "1"; mkCC x5e true false true "1"; mkCC x70 true false true "1"; mkCC x71 true false true "4"; mkCC x72 true false true "1"; mkCC x73 true false true "1"; mkCC x75 true false true "2"; mkCC x7a true false true "1"; mkCC x85 true false true "2"; mkCC x86 true false true "2"; mkCC x87 true false true "1"]).
Definition dev452 := ("0165_0002_0002", mkDevice "ID-RF" "Soft Remote" "Remote Control" "0165" "0002" "0002" [mkCC x00 false false true "1"; mkCC x20 false false true "1"; mkCC x59 true false true "1"; mkCC x5a true false true "0"; mkCC x5b true false true "1"; mkCC x5e true false true "1"; mkCC x70 true false true "1"; mkCC x72 true false true "1"; mkCC x73 true false true "1"; mkCC x80 true false true "1"; mkCC x84 true false true "2"; mkCC x85 true false true "1"; mkCC x86 true false true "1"]).
Definition dev453 := ("0096_0010_0001", mkDevice "NorthQ" "NQ-9121" "NorthQ Gas Meter" "0096" "0010" "0001" []).
Definition dev454 := ("0096_0001_0001", mkDevice "NorthQ" "NQ-9021" "NorthQ Electrical Meter" "0096" "0001" "0001" [mkCC x00 false false true "1"; mkCC x20 true false true "1"; mkCC x32 true false true "2"; mkCC x3d true false true "0"; mkCC x56 true false true "1"; mkCC x70 true false true "1"; mkCC x72 true false true "1"; mkCC x7a true false true "0"; mkCC x80 true false true "1"; mkCC x84 true false true "1"; mkCC x86 true false true "1"; mkCC x8b true false true "0"]).
Definition dev455 := ("0096_0001_0002", mkDevice "NorthQ" "NQ-9022" "NorthQ Electrical Meter" "0096" "0001" "0002" [mkCC x00 false false true "1"; mkCC x20 true false true "1"; mkCC x32 true false true "2"; mkCC x3d true false true "1"; mkCC x56 true false true "1"; mkCC x70 true false true "1"; mkCC x72 true false true "1"; mkCC x7a true false true "1"; mkCC x86 true false true "1"; mkCC x8b true false true "1"]).
Definition dev456 := ("013c_0006_001a", mkDevice "Philio Technology Corp" "ZIP-PAB01" "Zipato Micromodule Energy Meter" "013C" "0006" "001A" [mkCC x32 false false true "3"; mkCC x56 false false true "1"; mkCC x59 false false true "1"; mkCC x5a false false true "1"; mkCC x5e false false true "1"; mkCC x60 false false true "2"; mkCC x70 false false true "1"; mkCC x72 false false true "1"; mkCC x73 false false true "1"; mkCC x7a false false true "1"; mkCC x85 false false true "2"; mkCC x86 false false true "2"; mkCC x8e false false true "3"]).
Definition dev457 := ("013c_0005_0031", mkDevice "Philio Technology Corp" "PAD02" "Dimmer Socket" "013C" "0005" "0031" [mkCC x00 false false true "1"; mkCC x20 false false true "1"; mkCC x26 true true true "2"; mkCC x2b true true true "1"; mkCC x2c true true true "1"; mkCC x59 true true true "1"; mkCC x5a true true true "1"; mkCC x5e true true true "1"; mkCC x70 true true true "1"; mkCC x71 true true true "1"; mkCC x72 true true true "1"; mkCC x73 true true true "1"; mkCC x7a true true true "1"; mkCC x85 true true true "2"; mkCC x86 true true true "2"; mkCC x98 true false true "1"]).
Definition dev458 := ("013c_0001_000f", mkDevice "Philio Technology Corp" "PAN03" "In Wall Micromodule Single Switch" "013C" "0001" "000F" [mkCC x00 false false true "1"; mkCC x20 true false true "1"; mkCC x25 true false true "1"; mkCC x27 true false true "1"; mkCC x32 true false true "3"; mkCC x59 true false true "1"; mkCC x5a true false true "1"; mkCC x5e true false true "1"; mkCC x70 true false true "1"; mkCC x71 true false true "1"; mkCC x72 true false true "1"; mkCC x73 true false true "1"; mkCC x75 true false true "2"; mkCC x7a true false true "1"; mkCC x85 true false true "2"; mkCC x86 true false true "2"; mkCC x98 true false true "0"]).
Definition dev459 := ("013c_0001_0003", mkDevice "Philio Technology Corp" "PAN04" "In Wall Dual Relay(1 Way) Switch Module 2x 1.5kW				with power meter			" "013C" "0001" "0003" [mkCC x00 false false true "1"; mkCC x20 false false true "1"; mkCC x25 false false true "1"; mkCC x27 false false true "1"; mkCC x2b false false true "1"; mkCC x32 false false true "3"; mkCC x60 false false true "2"; mkCC x70 false false true "1"; mkCC x71 false false true "1"; mkCC x72 false false true "1"; mkCC x85 false false true "1"; mkCC x86 false false true "1"]).
Definition dev460 := ("013c_0001_0012", mkDevice "Philio Technology Corp" "PAN04" "In Wall Dual Relay(1 Way) Switch Module 2x 1.5kW				with power meter			" "013C" "0001" "0012" [mkCC x00 false false true "1"; mkCC x20 false false true "1"; mkCC x25 false false true "1"; mkCC x27 false false true "1"; mkCC x2b false false true "1"; mkCC x32 false false true "3"; mkCC x60 false false true "2"; mkCC x70 false false true "1"; mkCC x71 false false true "1"; mkCC x72 false false true "1"; mkCC x85 false false true "1"; mkCC x86 false false true "1"]).
Definition dev461 := ("013c_0001_0014", mkDevice "Philio Technology Corp" "PAN04" "In Wall Dual Relay(1 Way) Switch Module 2x 1.5kW				with power meter			" "013C" "0001" "0014" [mkCC x00 false false true "1"; mkCC x20 false false true "1"; mkCC x25 false false true "1"; mkCC x27 false false true "1"; mkCC x2b false false true "1"; mkCC x32 false false true "3"; mkCC x60 false false true "2"; mkCC x70 false false true "1"; mkCC x71 false false true "1"; mkCC x72 false false true "1"; mkCC x85 false false true "1"; mkCC x86 false false true "1"]).
Definition dev462 := ("013c_0001_0004", mkDevice "Philio Technology Corp" "PAN06" "In Wall Dual Relay(1 Way) Switch Module 2x 1.5kW			" "013C" "0001" "0004" [mkCC x00 false false true "1"; mkCC x20 true false true "1"; mkCC x25 true false true "1"; mkCC x27 true false true "1"; mkCC x60 true false true "2"; mkCC x70 true false true "1"; mkCC x71 true false true "1"; mkCC x72 true false true "1"; mkCC x85 true false true "1"; mkCC x86 true false true "1"]).
Definition dev463 := ("013c_0001_0013", mkDevice "Philio Technology Corp" "PAN06" "In Wall Dual Relay(1 Way) Switch Module 2x 1.5kW			" "013C" "0001" "0013" [mkCC x00 false false true "1"; mkCC x20 true false true "1"; mkCC x25 true false true "1"; mkCC x27 true false true "1"; mkCC x60 true false true "2"; mkCC x70 true false true "1"; mkCC x71 true false true "1"; mkCC x72 true false true "1"; mkCC x85 true false true "1"; mkCC x86 true false true "1"]).
Definition dev464 := ("013c_0001_0006", mkDevice "Philio Technology Corp" "PAN08" "Relay Insert for Blind Control" "013C" "0001" "0006" [mkCC x00 false false true "1"; mkCC x20 true false true "1"; mkCC x25 true false true "1"; mkCC x26 true false true "3"; mkCC x2b true false true "1"; mkCC x2c true false true "1"; mkCC x32 true false true "3"; mkCC x70 true false true "1"; mkCC x71 true false true "1"; mkCC x72 true false true "1"; mkCC x85 true false true "1"; mkCC x86 true false true "1"]).
Definition dev465 := ("013c_0001_0015", mkDevice "Philio Technology Corp" "PAN08" "Relay Insert for Blind Control" "013C" "0001" "0015" [mkCC x00 false false true "1"; mkCC x20 true false true "1"; mkCC x25 true false true "1"; mkCC x26 true false true "3"; mkCC x2b true false true "1"; mkCC x2c true false true "1"; mkCC x32 true false true "3"; mkCC x70 true false true "1"; mkCC x71 true false true "1"; mkCC x72 true false true "1"; mkCC x85 true false true "1"; mkCC x86 true false true "1"]).
Definition dev466 := ("013c_0001_0001", mkDevice "Philio Technology Corp" "PAN11" "Smart Energy Plug In Switch" "013C" "0001" "0001" [mkCC x00 false false true "1"; mkCC x20 true false true "1"; mkCC x25 true false true "1"; mkCC x27 true false true "1"; mkCC x32 true false true "3"; mkCC x59 true false true "1"; mkCC x5a true false true "1"; mkCC x5e true false true "2"; mkCC x70 true false true "1"; mkCC x71 true false true "1"; mkCC x72 true false true "2"; mkCC x73 true false true "1"; mkCC x75 true false true "2"; mkCC x7a true false true "2"; mkCC x85 true false true "2"; mkCC x86 false false true "1"; mkCC x98 true false true "1"]).
Definition dev467 := ("013c_0001_0011", mkDevice "Philio Technology Corp" "PAN11" "Smart Energy Plug In Switch" "013C" "0001" "0011" [mkCC x00 false false true "1"; mkCC x20 true false true "1"; mkCC x25 true false true "1"; mkCC x27 true false true "1"; mkCC x32 true false true "3"; mkCC x59 true false true "1"; mkCC x5a true false true "1"; mkCC x5e true false true "2"; mkCC x70 true false true "1"; mkCC x71 true false true "1"; mkCC x72 true false true "2"; mkCC x73 true false true "1"; mkCC x75 true false true "2"; mkCC x7a true false true "2"; mkCC x85 true false true "2"; mkCC x86 false false true "1"; mkCC x98 true false true "1"]).
Definition dev468 := ("013c_0001_0030", mkDevice "Philio Technology Corp" "PAN11" "Smart Energy Plug In Switch" "013C" "0001" "0030" [mkCC x00 false false true "1"; mkCC x20 true false true "1"; mkCC x25 true false true "1"; mkCC x27 true false true "1"; mkCC x32 true false true "3"; mkCC x59 true false true "1"; mkCC x5a true false true "1"; mkCC x5e true false true "2"; mkCC x70 true false true "1"; mkCC x71 true false true "1"; mkCC x72 true false true "2"; mkCC x73 true false true "1"; mkCC x75 true false true "2"; mkCC x7a true false true "2"; mkCC x85 true false true "2"; mkCC x86 false false true "1"; mkCC x98 true false true "1"]).
Definition dev469 := ("013c_0002_001f", mkDevice "Philio Technology Corp" "PAT02" "Flood Multisensor (incl. humidty and temperature)" "013C" "0002" "001F" [mkCC x00 false false true "1"; mkCC x20 false false true "1"; mkCC x30 false false true "2"; mkCC x31 false false true "5"; mkCC x70 false false true "1"; mkCC x71 false false true "1"; mkCC x72 false false true "1"; mkCC x80 false false true "1"; mkCC x84 false false true "2"; mkCC x85 false false true "1"; mkCC x86 false false true "1"; mkCC x8f false false true "1"]).
Definition dev470 := ("013c_0002_0020", mkDevice "Philio Technology Corp" "PAT02-B" "Z-Wave room sensor" "013C" "0002" "0020" [mkCC x00 false false true "1"; mkCC x20 false false true "1"; mkCC x30 true false true "2"; mkCC x31 true false true "5"; mkCC x59 true false true "1"; mkCC x5a true false true "1"; mkCC x5e true false true "1"; mkCC x70 true false true "1"; mkCC x71 true false true "4"; mkCC x72 true false true "1"; mkCC x73 true false true "1"; mkCC x7a true false true "1"; mkCC x80 true false true "1"; mkCC x84 true false true "2"; mkCC x85 true false true "2"; mkCC x86 true false true "2"; mkCC x8f true false true "1"; mkCC x98 true false true "1"]).
Definition dev471 := ("013c_0002_0021", mkDevice "Philio Technology Corp" "PAT02-C" "Flood Sensor" "013C" "0002" "0021" [mkCC x00 false false true "1"; mkCC x20 false false true "1"; mkCC x30 true false true "2"; mkCC x59 true false true "1"; mkCC x5a true false true "1"; mkCC x5e true false true "1"; mkCC x70 true false true "1"; mkCC x71 true false true "3"; mkCC x72 true false true "1"; mkCC x73 true false true "1"; mkCC x7a true false true "1"; mkCC x80 true false true "1"; mkCC x84 true false true "2"; mkCC x85 true false true "1"; mkCC x86 true false true "1"; mkCC x8f true false true "1"; mkCC x98 true false true "1"]).
Definition dev472 := ("013c_0004_000a", mkDevice "Philio Technology Corp" "PSE02" "Siren" "013C" "0004" "000A" [mkCC x00 false false true "1"; mkCC x20 false false true "1"; mkCC x25 false false true "1"; mkCC x59 true false true "0"; mkCC x5a true false true "1"; mkCC x5e true false true "1"; mkCC x71 false false false "3"; mkCC x72 true false true "1"; mkCC x73 true false true "1"; mkCC x7a true false true "0"; mkCC x86 true false true "1"; mkCC x98 true false true "0"]).
Definition dev473 := ("013c_0002_0002", mkDevice "Philio Technology Corp" "PSM02" "Slim Multi-Sensor" "013C" "0002" "0002" [mkCC x00 false false true "1"; mkCC x20 false false true "1"; mkCC x30 false false true "2"; mkCC x31 false false true "5"; mkCC x70 false false true "1"; mkCC x72 false false true "1"; mkCC x80 false false true "1"; mkCC x84 false false true "2"; mkCC x85 false false true "1"; mkCC x86 false false true "1"]).
Definition dev474 := ("013c_0009_0022", mkDevice "Philio Technology Corp" "PSR04" "Smart Color Button" "013C" "0009" "0022" [mkCC x00 false false true "1"; mkCC x20 true false true "1"; mkCC x59 true false true "1"; mkCC x5a true false true "1"; mkCC x5b true true false "1"; mkCC x5e true false true "2"; mkCC x70 true true false "1"; mkCC x72 true false true "2"; mkCC x73 true false true "1"; mkCC x7a true false true "2"; mkCC x80 true true false "1"; mkCC x84 true true false "2"; mkCC x85 true true false "2"; mkCC x86 true false true "2"; mkCC x8f true false true "1"; mkCC x98 true false true "1"]).
Definition dev475 := ("013c_0002_000c", mkDevice "Philio Technology Corp" "PST02A" "Slim Multi-Sensor (PIR/Door/Temperature/Illumination)" "013C" "0002" "000C" [mkCC x00 false false true "1"; mkCC x20 false false true "1"; mkCC x30 false false true "2"; mkCC x31 false false true "5"; mkCC x59 true false true "0"; mkCC x5a true false true "0"; mkCC x5e true false true "0"; mkCC x70 false false true "1"; mkCC x71 false false true "1"; mkCC x72 false false true "1"; mkCC x73 true false true "0"; mkCC x80 false false true "1"; mkCC x84 false false true "2"; mkCC x85 false false true "1"; mkCC x86 false false true "1"; mkCC x8f false false true "1"]).
Definition dev476 := ("013c_0002_000d", mkDevice "Philio Technology Corp" "PST02B" "Slim Multi-Sensor (PIR/Temperature/Illumination)" "013C" "0002" "000D" [mkCC x00 false false true "1"; mkCC x20 false false true "1"; mkCC x30 true false true "2"; mkCC x31 true false true "5"; mkCC x59 true false true "1"; mkCC x5a true false true "1"; mkCC x5e true false true "1"; mkCC x70 true false true "1"; mkCC x71 true false true "3"; mkCC x72 true false true "1"; mkCC x73 true false true "1"; mkCC x7a true false true "1"; mkCC x80 true false true "1"; mkCC x84 true false true "2"; mkCC x85 true false true "1"; mkCC x86 true false true "1"; mkCC x8f true false true "1"; mkCC x98 true false true "1"]).
Definition dev477 := ("013c_0002_000e", mkDevice "Philio Technology Corp" "PST02C" "Slim Multi-Sensor (Door/Temperature/Illumination)" "013C" "0002" "000E" [mkCC x00 false false true "1"; mkCC x20 false false true "1"; mkCC x30 false false true "2"; mkCC x31 false false true "5"; mkCC x70 false false true "1"; mkCC x71 false false true "1"; mkCC x72 false false true "1"; mkCC x80 false false true "1"; mkCC x84 false false true "2"; mkCC x85 false false true "1"; mkCC x86 false false true "1"; mkCC x8f false false true "1"]).
Definition dev478 := ("010e_0008_0002", mkDevice "Poly-control" "BTZW125" "Danalock v2 circle" "010E" "0008" "0002" [mkCC x00 false false true "1"; mkCC x20 false true false "1"; mkCC x22 false false true "1"; mkCC x59 false true false "1"; mkCC x5e false false true "2"; mkCC x62 true true false "2"; mkCC x70 false true false "1"; mkCC x72 true true true "2"; mkCC x73 false false true "1"; mkCC x80 false true true "1"; mkCC x85 false true false "2"; mkCC x8a false true false "1"; mkCC x8b false true false "1"]).
Definition dev479 := ("0154_0100_0201", mkDevice "Popp & Co" "004001" "Smoke Detector and Siren" "0154" "0100" "0201" [mkCC x00 false false true "1"; mkCC x20 false false true "1"; mkCC x25 false false true "1"; mkCC x30 false false true "2"; mkCC x70 false false true "1"; mkCC x71 false false true "1"; mkCC x72 false false true "1"; mkCC x80 false false true "1"; mkCC x85 false false true "1"; mkCC x86 false false true "1"]).
Definition dev480 := ("0154_0004_0003", mkDevice "Popp & Co" "004407" "CO Detector" "0154" "0004" "0003" [mkCC x00 false false true "1"; mkCC x20 true false true "1"; mkCC x30 true false true "2"; mkCC x31 true false true "7"; mkCC x59 true false true "1"; mkCC x5a true false true "1"; mkCC x5e true false true "1"; mkCC x70 true false true "1"; mkCC x71 true false true "5"; mkCC x72 true false true "1"; mkCC x73 true false true "1"; mkCC x7a true false true "1"; mkCC x80 true false true "1"; mkCC x84 true false true "2"; mkCC x85 true false true "2"; mkCC x86 true false true "2"]).
Definition dev481 := ("0154_0000_0000", mkDevice "Popp & Co" "005107" "Solar Powered Outdoor Siren" "0154" "0000" "0000" [mkCC x00 false false true "1"; mkCC x20 false false true "1"; mkCC x25 false false true "1"; mkCC x30 false false true "2"; mkCC x31 false false true "5"; mkCC x70 false false true "1"; mkCC x71 false false true "1"; mkCC x72 false false true "1"; mkCC x80 false false true "1"; mkCC x85 false false true "1"; mkCC x86 false false true "1"]).
Definition dev482 := ("0154_0004_0002", mkDevice "Popp & Co" "005107" "Solar Powered Outdoor Siren" "0154" "0004" "0002" [mkCC x00 false false true "1"; mkCC x20 false false true "1"; mkCC x25 false false true "1"; mkCC x30 false false true "2"; mkCC x31 false false true "5"; mkCC x70 false false true "1"; mkCC x71 false false true "1"; mkCC x72 false false true "1"; mkCC x80 false false true "1"; mkCC x85 false false true "1"; mkCC x86 false false true "1"]).
Definition dev483 := ("0154_0100_0400", mkDevice "Popp & Co" "005206" "Z-Weather" "0154" "0100" "0400" [mkCC x00 false false true "1"; mkCC x20 false false true "1"; mkCC x30 false false true "0"; mkCC x31 true false true "6"; mkCC x32 true false true "3"; mkCC x59 true false true "1"; mkCC x5a true false true "1"; mkCC x5e true false true "1"; mkCC x70 true false true "1"; mkCC x72 true false true "1"; mkCC x73 true false true "1"; mkCC x80 true false true "1"; mkCC x84 true false true "2"; mkCC x85 true false true "2"; mkCC x86 true false true "2"; mkCC x89 true false true "1"; mkCC x8e true false true "2"; mkCC x8f true false true "1"; mkCC x9b true false true "0"]).
Definition dev484 := ("0154_0100_0103", mkDevice "Popp & Co" "009204" "KFOB-C Remote-Control" "0154" "0100" "0103" [mkCC x00 false false true "1"; mkCC x20 false false true "1"; mkCC x2d true false true "1"; mkCC x59 true false true "1"; mkCC x5a true false true "1"; mkCC x5b true false true "1"; mkCC x5e true false true "1"; mkCC x70 true false true "1"; mkCC x72 true false true "1"; mkCC x73 true false true "1"; mkCC x80 true false true "1"; mkCC x84 true false true "2"; mkCC x85 true false true "1"; mkCC x86 true false true "2"; mkCC x8e true false true "1"; mkCC x8f true false true "1"]).
Definition dev485 := ("0154_0100_0101", mkDevice "Popp & Co" "009303" "Wall Controller" "0154" "0100" "0101" [mkCC x00 false false true "1"; mkCC x20 false false true "1"; mkCC x26 false false true "0"; mkCC x2b false false true "0"; mkCC x2d true false true "0"; mkCC x59 true false true "0"; mkCC x5a true false true "1"; mkCC x5b false false true "1"; mkCC x5e true false true "1"; mkCC x70 true false true "1"; mkCC x72 true false true "1"; mkCC x73 true false true "1"; mkCC x80 true false true "1"; mkCC x84 true false true "2"; mkCC x85 true false true "1"; mkCC x86 true false true "1"; mkCC x8e true false true "0"; mkCC x8f true false true "1"]).
Definition dev486 := ("0154_0004_0004", mkDevice "Popp & Co" "009402" "10 Year Smoke Detector with Siren Function" "0154" "0004" "0004" [mkCC x00 false false true "1"; mkCC x20 false false true "1"; mkCC x25 false false true "1"; mkCC x30 false false true "2"; mkCC x70 false false true "1"; mkCC x71 false false true "1"; mkCC x72 false false true "1"; mkCC x80 false false true "1"; mkCC x85 false false true "1"; mkCC x86 false false true "1"]).
Definition dev487 := ("0154_0005_0001", mkDevice "Popp & Co" "012501" "Electric Strike Lock Control" "0154" "0005" "0001" [mkCC x00 false false true "1"; mkCC x20 false false true "1"; mkCC x30 true false true "2"; mkCC x59 true false true "1"; mkCC x5a true false true "1"; mkCC x5e true false true "1"; mkCC x62 false false true "0"; mkCC x63 false false true "0"; mkCC x70 true false true "1"; mkCC x71 true false true "5"; mkCC x72 true false true "1"; mkCC x73 true false true "1"; mkCC x76 false false true "1"; mkCC x7a true false true "1"; mkCC x80 true false true "1"; mkCC x85 true false true "2"; mkCC x86 true false true "2"]).
Definition dev488 := ("0154_0003_0001", mkDevice "Popp & Co" "05438" "Indoor/Outdoor Wall Plug Switch" "0154" "0003" "0001" [mkCC x00 false false true "1"; mkCC x20 false false true "1"; mkCC x25 false false true "1"; mkCC x27 false false true "0"; mkCC x32 false false true "3"; mkCC x70 false false true "1"; mkCC x72 false false true "1"; mkCC x85 false false true "1"; mkCC x86 false false true "1"; mkCC x87 false false true "0"]).
Definition dev489 := ("0154_1100_0002", mkDevice "Popp & Co" "123580" "Wall Plug Dimmer" "0154" "1100" "0002" [mkCC x00 false false true "1"; mkCC x20 true false true "1"; mkCC x26 true false true "2"; mkCC x27 true false true "0"; mkCC x70 true false true "1"; mkCC x72 true false true "1"; mkCC x75 true false true "0"; mkCC x77 true false true "0"; mkCC x85 true false true "1"; mkCC x86 true false true "1"; mkCC x87 true false true "0"]).
Definition dev490 := ("0154_1100_0001", mkDevice "Popp & Co" "123610" "Wall Plug Switch" "0154" "1100" "0001" [mkCC x00 false false true "1"; mkCC x20 true false true "1"; mkCC x25 true false true "1"; mkCC x27 true false true "1"; mkCC x70 true false true "1"; mkCC x72 true false true "1"; mkCC x75 true false true "1"; mkCC x77 true false true "1"; mkCC x85 true false true "1"; mkCC x86 true false true "1"; mkCC x87 true false true "1"]).
Definition dev491 := ("0154_0001_0001", mkDevice "Popp & Co" "123665" "Wall Plug Meter Switch" "0154" "0001" "0001" [mkCC x00 false false true "1"; mkCC x20 true false true "1"; mkCC x25 true false true "1"; mkCC x27 true false true "1"; mkCC x32 true false true "3"; mkCC x70 true false true "1"; mkCC x72 true false true "1"; mkCC x85 true false true "1"; mkCC x86 true false true "1"]).
Definition dev492 := ("0154_0004_0011", mkDevice "Popp & Co" "POPE700168" "POPP Rain-Sensor" "0154" "0004" "0011" [mkCC x00 false false true "1"; mkCC x31 false false true "7"; mkCC x32 false false true "3"; mkCC x59 false false true "1"; mkCC x5a false false true "1"; mkCC x5e false false true "1"; mkCC x70 false false true "1"; mkCC x72 false false true "1"; mkCC x73 false false true "1"; mkCC x7a false false true "1"; mkCC x80 false false true "1"; mkCC x84 false false true "2"; mkCC x85 false false true "2"; mkCC x86 false false true "2"]).
Definition dev493 := ("0128_0000_0000", mkDevice "Prodrive Technologies" "ED2.0" "Eneco Meter Adapter" "0128" "0000" "0000" [mkCC x00 false false true "1"; mkCC x20 false false true "1"; mkCC x22 true false true "1"; mkCC x3c true false true "0"; mkCC x3d true false true "1"; mkCC x3e true false true "0"; mkCC x56 true false true "1"; mkCC x60 true false true "2"; mkCC x70 true false true "1"; mkCC x72 true false true "1"; mkCC x73 true false true "1"; mkCC x7a true false true "0"; mkCC x86 true false true "1"; mkCC x8b true false true "1"]).
Definition dev494 := ("0095_3103_0001", mkDevice "Qees" "P313A" "Plug-in Socket Dimmer" "0095" "3103" "0001" [mkCC x00 false false true "1"; mkCC x20 false false true "1"; mkCC x25 false false true "0"; mkCC x26 true false true "2"; mkCC x27 true false true "1"; mkCC x2b true false true "1"; mkCC x2c true false true "1"; mkCC x32 true false true "3"; mkCC x72 true false true "1"; mkCC x7a true false true "1"; mkCC x85 true false true "2"; mkCC x86 true false true "1"]).
Definition dev495 := ("0095_0002_0001", mkDevice "Qees" "Qees Wall" "Wall mountable mini 4 button remote" "0095" "0002" "0001" [mkCC x00 false false true "1"; mkCC x20 false false true "1"; mkCC x70 true false true "1"; mkCC x72 true false true "1"; mkCC x80 true false true "1"; mkCC x84 true false true "1"; mkCC x85 true false true "1"; mkCC x86 true false true "1"]).
Definition dev496 := ("0159_0002_0002", mkDevice "Goap" "ZMNHAA" "Flush 1 relay" "0159" "0002" "0002" [mkCC x00 false false true "1"; mkCC x20 false false true "1"; mkCC x25 false false true "1"; mkCC x31 false false true "3"; mkCC x32 false false true "3"; mkCC x60 false false true "2"; mkCC x70 false false true "1"; mkCC x72 false false true "1"; mkCC x85 false false true "1"; mkCC x86 false false true "1"]).
Definition dev497 := ("0159_0002_0052", mkDevice "Goap" "ZMNHAD" "Flush 1 relay" "0159" "0002" "0052" [mkCC x00 false false true "1"; mkCC x20 true false true "1"; mkCC x25 true false true "1"; mkCC x27 true false true "1"; mkCC x30 true false true "1"; mkCC x32 true false true "3"; mkCC x59 true false true "1"; mkCC x5a true false true "1"; mkCC x5e true false true "1"; mkCC x60 true false true "2"; mkCC x70 true false true "1"; mkCC x71 true false true "3"; mkCC x72 true false true "1"; mkCC x73 true false true "1"; mkCC x85 true false true "1"; mkCC x86 true false true "1"; mkCC x8e true false true "0"]).
Definition dev498 := ("0159_0002_0001", mkDevice "Goap" "ZMNHBA" "Flush 2 relays" "0159" "0002" "0001" [mkCC x00 false false true "1"; mkCC x20 false false true "1"; mkCC x25 false false true "1"; mkCC x27 false false true "1"; mkCC x31 false false true "5"; mkCC x32 false false true "3"; mkCC x60 false false true "2"; mkCC x70 false false true "1"; mkCC x72 false false true "1"; mkCC x85 false false true "1"; mkCC x86 false false true "1"]).
Definition dev499 := ("0159_0002_0051", mkDevice "Goap" "ZMNHBD" "Flush 2 relays" "0159" "0002" "0051" [mkCC x00 false false true "1"; mkCC x20 false false true "1"; mkCC x25 false false true "1"; mkCC x27 false false true "0"; mkCC x31 false false true "5"; mkCC x32 false false true "3"; mkCC x60 false false true "2"; mkCC x70 false false true "1"; mkCC x72 false false true "1"; mkCC x85 false false true "1"; mkCC x86 false false true "1"]).
Definition dev500 := ("0159_0003_0002", mkDevice "Goap" "ZMNHCD" "Flush Shutter" "0159" "0003" "0002" [mkCC x00 false false true "1"; mkCC x20 true false true "1"; mkCC x25 true false true "1"; mkCC x26 true false true "3"; mkCC x27 true false true "1"; mkCC x31 true false true "0"; mkCC x32 true false true "3"; mkCC x59 true false true "1"; mkCC x5a true false true "1"; mkCC x5e true false true "1"; mkCC x60 true false true "2"; mkCC x70 true false true "1"; mkCC x72 true false true "1"; mkCC x73 true false true "1"; mkCC x85 true false true "1"; mkCC x86 true false true "2"; mkCC x8e true false true "1"]).
Definition dev501 := ("0159_0003_0052", mkDevice "Goap" "ZMNHCD" "Flush Shutter" "0159" "0003" "0052" [mkCC x00 false false true "1"; mkCC x20 true false true "1"; mkCC x25 true false true "1"; mkCC x26 true false true "3"; mkCC x27 true false true "1"; mkCC x31 true false true "0"; mkCC x32 true false true "3"; mkCC x59 true false true "1"; mkCC x5a true false true "1"; mkCC x5e true false true "1"; mkCC x60 true false true "2"; mkCC x70 true false true "1"; mkCC x72 true false true "1"; mkCC x73 true false true "1"; mkCC x85 true false true "1"; mkCC x86 true false true "2"; mkCC x8e true false true "1"]).
Definition dev502 := ("0159_0001_0001", mkDevice "Goap" "ZMNHDA" "Flush dimmer" "0159" "0001" "0001" [mkCC x00 false false true "1"; mkCC x20 true false true "1"; mkCC x25 true false true "1"; mkCC x26 true false true "3"; mkCC x27 true false true "1"; mkCC x31 true false true "3"; mkCC x32 true false true "3"; mkCC x60 true false true "2"; mkCC x70 true false true "1"; mkCC x72 true false true "1"; mkCC x73 true false true "1"; mkCC x85 true false true "1"; mkCC x86 true false true "1"]).
Definition dev503 := ("0159_0001_0051", mkDevice "Goap" "ZMNHDD" "Flush Dimmer Plus" "0159" "0001" "0051" [mkCC x00 false false true "1"; mkCC x20 false false true "1"; mkCC x25 false false true "1"; mkCC x26 false false true "3"; mkCC x30 false false true "1"; mkCC x31 false false true "5"; mkCC x32 false false true "3"; mkCC x60 false false true "2"; mkCC x70 false false true "1"; mkCC x71 false false true "1"; mkCC x72 false false true "1"; mkCC x85 false false true "1"; mkCC x86 false false true "1"]).
Definition dev504 := ("0159_0005_0001", mkDevice "Goap" "ZMNHIA" "Flush on/off thermostat" "0159" "0005" "0001" [mkCC x00 false false true "1"; mkCC x20 false false true "1"; mkCC x31 true false true "3"; mkCC x32 true false true "3"; mkCC x40 true false true "1"; mkCC x43 true false true "1"; mkCC x60 true false true "2"; mkCC x70 true false true "1"; mkCC x72 true false true "0"; mkCC x73 true false true "1"; mkCC x85 true false true "1"; mkCC x86 true false true "1"]).
Definition dev505 := ("0159_0005_0051", mkDevice "Goap" "ZMNHID" "Flush on/off thermostat" "0159" "0005" "0051" [mkCC x00 false false true "1"; mkCC x20 false false true "1"; mkCC x27 false false true "1"; mkCC x31 false false true "5"; mkCC x32 false false true "3"; mkCC x40 false false true "2"; mkCC x43 false false true "2"; mkCC x70 false false true "1"; mkCC x72 false false true "1"; mkCC x85 false false true "1"; mkCC x86 false false true "1"]).
Definition dev506 := ("0159_0004_0001", mkDevice "Qubino" "ZMNHJA2" "Qubino Flush Pilot" "0159" "0004" "0001" [mkCC x00 false false true "1"; mkCC x20 true false true "1"; mkCC x25 true false true "1"; mkCC x26 true false true "3"; mkCC x27 true false true "1"; mkCC x31 true false true "3"; mkCC x60 true false true "2"; mkCC x70 true false true "1"; mkCC x72 true false true "1"; mkCC x85 true false true "1"; mkCC x86 true false true "1"]).
Definition dev507 := ("0159_0004_0051", mkDevice "Goap" "ZMNHJD" "Flush Pilot" "0159" "0004" "0051" [mkCC x00 false false true "1"; mkCC x20 false false true "1"; mkCC x25 false false true "1"; mkCC x26 false false true "3"; mkCC x27 false false true "1"; mkCC x31 false false true "3"; mkCC x60 false false true "2"; mkCC x70 false false true "1"; mkCC x72 false false true "1"; mkCC x85 false false true "1"; mkCC x86 false false true "1"]).
Definition dev508 := ("0159_0005_0003", mkDevice "Goap" "ZMNHLA" "Flush PWM thermostat" "0159" "0005" "0003" [mkCC x00 false false true "1"; mkCC x20 false false true "1"; mkCC x31 false false true "3"; mkCC x32 false false true "3"; mkCC x40 false false true "2"; mkCC x43 false false true "2"; mkCC x70 false false true "1"; mkCC x72 false false true "1"; mkCC x85 false false true "1"; mkCC x86 false false true "1"]).
Definition dev509 := ("0159_0005_0053", mkDevice "Goap" "ZMNHLD" "Flush PWM Thermostat" "0159" "0005" "0053" [mkCC x20 false false true "0"; mkCC x27 false false true "0"; mkCC x30 false false true "0"; mkCC x31 false false true "7"; mkCC x32 false false true "4"; mkCC x40 false false true "2"; mkCC x43 false false true "2"; mkCC x59 false false true "2"; mkCC x5a false false true "0"; mkCC x5e false false true "2"; mkCC x70 false false true "2"; mkCC x72 false false true "2"; mkCC x73 false false true "0"; mkCC x85 false false true "2"; mkCC x86 false false true "2"; mkCC xef false false true "0"]).
Definition dev510 := ("0159_0002_0053", mkDevice "Goap" "ZMNHND" "Flush 1D relay" "0159" "0002" "0053" [mkCC x00 false false true "1"; mkCC x20 false false true "1"; mkCC x25 false false true "1"; mkCC x27 false false true "1"; mkCC x30 false false true "0"; mkCC x31 false false true "7"; mkCC x59 false false true "1"; mkCC x5a false false true "1"; mkCC x5e false false true "1"; mkCC x60 false false true "2"; mkCC x70 false false true "1"; mkCC x72 false false true "1"; mkCC x73 false false true "1"; mkCC x85 false false true "2"; mkCC x86 false false true "2"; mkCC x8e false false true "3"]).
Definition dev511 := ("0159_0003_0053", mkDevice "Goap" "ZMNHOD" "Flush Shutter DC" "0159" "0003" "0053" [mkCC x00 false false true "1"; mkCC x20 true false true "1"; mkCC x25 true false true "1"; mkCC x26 true false true "3"; mkCC x27 true false true "1"; mkCC x30 false false true "0"; mkCC x31 true false true "7"; mkCC x32 true false true "3"; mkCC x59 true false true "1"; mkCC x5a true false true "1"; mkCC x5e true false true "1"; mkCC x60 true false true "2"; mkCC x70 true false true "1"; mkCC x72 true false true "1"; mkCC x73 true false true "1"; mkCC x85 true false true "1"; mkCC x86 true false true "1"; mkCC x8e true false true "0"]).
Definition dev512 := ("0159_0001_0052", mkDevice "Goap" "ZMNHSD" "DIN Rail Dimmer" "0159" "0001" "0052" [mkCC x00 false false true "1"; mkCC x20 false false true "1"; mkCC x25 false false true "1"; mkCC x26 false false true "3"; mkCC x27 false false true "1"; mkCC x32 false false true "3"; mkCC x70 false false true "1"; mkCC x72 false false true "1"; mkCC x85 false false true "1"; mkCC x86 false false true "1"]).
Definition dev513 := ("0159_0001_0053", mkDevice "Goap" "ZMNHVD" "Flush Dimmer 0-10V " "0159" "0001" "0053" [mkCC x00 false false true "1"; mkCC x20 true false true "1"; mkCC x25 true false true "1"; mkCC x26 true false true "3"; mkCC x27 true false true "1"; mkCC x59 true false true "1"; mkCC x5a true false true "1"; mkCC x5e true false true "1"; mkCC x70 true false true "1"; mkCC x72 true false true "1"; mkCC x73 true false true "1"; mkCC x85 true false true "1"; mkCC x86 true false true "1"; mkCC x8e true false true "0"]).
Definition dev514 := ("0159_0001_0054", mkDevice "Goap" "ZMNHWD" "Qubino Flush RGBW Dimmer" "0159" "0001" "0054" [mkCC x00 false false true "1"; mkCC x20 true false true "1"; mkCC x25 true false true "1"; mkCC x26 true false true "2"; mkCC x33 true false true "2"; mkCC x59 true false true "1"; mkCC x5a true false true "1"; mkCC x5e true false true "1"; mkCC x70 true false true "1"; mkCC x72 true false true "1"; mkCC x73 true false true "1"; mkCC x7a true false true "1"; mkCC x85 true false true "2"; mkCC x86 true false true "2"]).
Definition dev515 := ("0159_0007_0053", mkDevice "Goap" "ZMNHZD" "Multifunctional Weather Station" "0159" "0007" "0053" [mkCC x00 false false true "1"; mkCC x20 false false true "1"; mkCC x31 false false true "5"; mkCC x60 false false true "2"; mkCC x70 false false true "1"; mkCC x72 false false true "1"; mkCC x80 false false true "1"; mkCC x85 false false true "1"; mkCC x86 false false true "1"]).
Definition dev516 := ("0010_5442_5432", mkDevice "Residential Control Systems, Inc. (RCS)" "TBZ48" "Thermostat" "0010" "5442" "5432" [mkCC x00 false false true "1"; mkCC x20 false false true "1"; mkCC x2b false false true "1"; mkCC x31 false false true "1"; mkCC x40 false false true "1"; mkCC x42 false false true "1"; mkCC x43 false false true "2"; mkCC x44 false false true "1"; mkCC x45 false false true "1"; mkCC x70 false false true "1"; mkCC x72 false false true "1"; mkCC x80 false false true "1"; mkCC x85 false false true "1"; mkCC x86 false false true "1"; mkCC x8f false false true "1"]).
Definition dev517 := ("0010_0001_0002", mkDevice "Residential Control Systems, Inc. (RCS)" "TZ43" "Thermostat" "0010" "0001" "0002" [mkCC x00 false false true "1"; mkCC x20 false false true "1"; mkCC x31 true false true "1"; mkCC x40 true false true "1"; mkCC x42 true false true "1"; mkCC x43 true false true "1"; mkCC x44 true false true "1"; mkCC x45 true false true "1"; mkCC x70 true false true "1"; mkCC x72 true false true "1"; mkCC x76 true false true "1"; mkCC x81 true false true "1"; mkCC x85 true false true "1"; mkCC x86 true false true "1"]).
Definition dev518 := ("0064_2001_0000", mkDevice "Reitz-Group.de" "Reitz 05431" "Duewi ZW BJ ES 1000 / Reitz 05431 / ZWave.me 05457 Single button wall switch" "0064" "2001" "0000" [mkCC x00 false false true "1"; mkCC x20 false false true "1"; mkCC x25 true false true "1"; mkCC x27 true false true "1"; mkCC x72 true false true "1"; mkCC x75 true false true "1"; mkCC x82 true false true "1"; mkCC x85 true false true "1"; mkCC x86 true false true "1"; mkCC x87 true false true "1"]).
Definition dev519 := ("0064_0001_0000", mkDevice "Reitz-Group.de" "05433" "One Paddle Wall Dimmer Insert" "0064" "0001" "0000" [mkCC x00 false false true "1"; mkCC x20 false false true "1"; mkCC x26 true false true "2"; mkCC x27 true false true "1"; mkCC x72 true false true "1"; mkCC x75 true false true "1"; mkCC x82 true false true "1"; mkCC x85 true false true "1"; mkCC x86 true false true "1"; mkCC x87 true false true "1"]).
Definition dev520 := ("0064_3001_0000", mkDevice "Reitz-Group.de" "054375" "Schuko Plug Switch" "0064" "3001" "0000" [mkCC x00 false false true "1"; mkCC x20 false false true "1"; mkCC x25 true false true "1"; mkCC x27 true false true "1"; mkCC x72 true false true "1"; mkCC x75 true false true "1"; mkCC x82 true false true "1"; mkCC x86 true false true "1"; mkCC x87 true false true "1"]).
Definition dev521 := ("0064_3002_0000", mkDevice "Reitz-Group.de" "054375" "Schuko Plug Switch" "0064" "3002" "0000" [mkCC x00 false false true "1"; mkCC x20 false false true "1"; mkCC x25 true false true "1"; mkCC x27 true false true "1"; mkCC x72 true false true "1"; mkCC x75 true false true "1"; mkCC x82 true false true "1"; mkCC x86 true false true "1"; mkCC x87 true false true "1"]).
Definition dev522 := ("0064_5002_0000", mkDevice "Reitz-Group.de" "Duwi ZW WS - 05443" "Battery powered One paddle wall controller" "0064" "5002" "0000" [mkCC x00 false false true "1"; mkCC x20 false false true "1"; mkCC x72 true false true "1"; mkCC x80 true false true "1"; mkCC x85 true false true "1"]).
Definition dev523 := ("0064_4001_0000", mkDevice "Reitz-Group.de" "06436" "Insert blind control" "0064" "4001" "0000" [mkCC x00 false false true "1"; mkCC x20 false false true "1"; mkCC x25 true false true "1"; mkCC x26 true false true "1"; mkCC x27 true false true "1"; mkCC x70 true false true "1"; mkCC x72 true false true "1"; mkCC x75 true false true "1"; mkCC x82 true false true "1"; mkCC x85 true false true "1"; mkCC x86 true false true "1"; mkCC x87 true false true "1"]).
Definition dev524 := ("0064_1001_0000", mkDevice "Reitz-Group.de" "064394" "Schuko Plug Dimmer" "0064" "1001" "0000" [mkCC x00 false false true "1"; mkCC x20 false false true "1"; mkCC x26 true false true "2"; mkCC x27 true false true "1"; mkCC x72 true false true "1"; mkCC x75 true false true "1"; mkCC x82 true false true "1"; mkCC x86 true false true "1"; mkCC x87 true false true "1"]).
Definition dev525 := ("0064_5003_0000", mkDevice "Reitz-Group.de" "DUW_RPT" "Düwi Repeater" "0064" "5003" "0000" [mkCC x00 false false true "1"; mkCC x20 false false true "1"; mkCC x71 true false true "1"; mkCC x72 true false true "1"; mkCC x80 true false true "1"; mkCC x86 true false true "1"; mkCC x87 true false true "1"]).
Definition dev526 := ("0064_0166_2007", mkDevice "Reitz-Group.de" "swiidplug" "SwiidPlug" "0064" "0166" "2007" [mkCC x00 false false true "1"; mkCC x20 false false true "1"; mkCC x25 true false true "1"; mkCC x27 true false true "1"; mkCC x72 true false true "1"; mkCC x75 true false true "1"; mkCC x82 true false true "1"; mkCC x86 true false true "1"; mkCC x87 true false true "1"]).
Definition dev527 := ("0064_1000_0009", mkDevice "Reitz-Group.de" "ZME_05431" "Switch" "0064" "1000" "0009" [mkCC x00 false false true "1"; mkCC x20 true false true "1"; mkCC x25 true false true "1"; mkCC x26 false false true "0"; mkCC x27 true false true "1"; mkCC x2b true false true "1"; mkCC x2c true false true "1"; mkCC x2d true false true "1"; mkCC x32 true false true "3"; mkCC x59 true false true "1"; mkCC x5a true false true "1"; mkCC x5e true false true "1"; mkCC x70 true false true "1"; mkCC x72 true false true "1"; mkCC x73 true false true "1"; mkCC x75 true false true "1"; mkCC x77 true false true "1"; mkCC x85 true false true "2"; mkCC x86 true false true "2"; mkCC x87 true false true "1"; mkCC x8e true false true "2"]).
Definition dev528 := ("5254_8000_0002", mkDevice "Remotec" "ZFM-80" "Fixture Switch Module" "5254" "8000" "0002" [mkCC x00 false false true "1"; mkCC x20 false false true "1"; mkCC x25 false false true "1"; mkCC x27 false false true "1"; mkCC x70 false false true "1"; mkCC x72 false false true "1"; mkCC x85 false false true "1"; mkCC x86 false false true "1"]).
Definition dev529 := ("5254_0001_8380", mkDevice "Remotec" "ZRC-100" "Remote Control" "5254" "0001" "8380" [mkCC x00 false false true "1"; mkCC x20 false false true "1"; mkCC x21 true false true "1"; mkCC x2d true false true "1"; mkCC x72 true false true "1"; mkCC x84 true false true "1"; mkCC x85 true false true "1"; mkCC x86 true false true "1"; mkCC x8e true false true "1"; mkCC x98 true false true "1"]).
Definition dev530 := ("5254_0002_8380", mkDevice "Remotec" "ZRC-100" "Remote Control" "5254" "0002" "8380" [mkCC x00 false false true "1"; mkCC x20 false false true "1"; mkCC x21 true false true "1"; mkCC x2d true false true "1"; mkCC x72 true false true "1"; mkCC x84 true false true "1"; mkCC x85 true false true "1"; mkCC x86 true false true "1"; mkCC x8e true false true "1"; mkCC x98 true false true "1"]).
Definition dev531 := ("5254_0000_8510", mkDevice "Remotec" "ZRC-90" "Scene master 8 button remote" "5254" "0000" "8510" [mkCC x00 false false true "1"; mkCC x20 false false true "1"; mkCC x21 true false true "1"; mkCC x59 true false true "1"; mkCC x5a true false true "1"; mkCC x5b true false true "1"; mkCC x5e true false true "1"; mkCC x72 true false true "1"; mkCC x73 true false true "1"; mkCC x80 true false true "1"; mkCC x84 true false true "2"; mkCC x85 true false true "1"; mkCC x86 true false true "1"]).
Definition dev532 := ("5254_0001_8510", mkDevice "Remotec" "ZRC-90" "Scene master 8 button remote" "5254" "0001" "8510" [mkCC x00 false false true "1"; mkCC x20 false false true "1"; mkCC x21 true false true "1"; mkCC x59 true false true "1"; mkCC x5a true false true "1"; mkCC x5b true false true "1"; mkCC x5e true false true "1"; mkCC x72 true false true "1"; mkCC x73 true false true "1"; mkCC x80 true false true "1"; mkCC x84 true false true "2"; mkCC x85 true false true "1"; mkCC x86 true false true "1"]).
Definition dev533 := ("5254_0002_8510", mkDevice "Remotec" "ZRC-90" "Scene master 8 button remote" "5254" "0002" "8510" [mkCC x00 false false true "1"; mkCC x20 false false true "1"; mkCC x21 true false true "1"; mkCC x59 true false true "1"; mkCC x5a true false true "1"; mkCC x5b true false true "1"; mkCC x5e true false true "1"; mkCC x72 true false true "1"; mkCC x73 true false true "1"; mkCC x80 true false true "1"; mkCC x84 true false true "2"; mkCC x85 true false true "1"; mkCC x86 true false true "1"]).
Definition dev534 := ("5254_0200_8031", mkDevice "Remotec" "ZTS-110" "Remotec ZTS-110 Z Wave Thermostat" "5254" "0200" "8031" [mkCC x00 false false true "1"; mkCC x20 false false true "1"; mkCC x31 false false true "1"; mkCC x40 false false true "1"; mkCC x42 false false true "1"; mkCC x43 false false true "1"; mkCC x44 false false true "1"; mkCC x45 false false true "1"; mkCC x70 false false true "1"; mkCC x72 false false true "1"; mkCC x80 false false true "1"; mkCC x85 false false true "1"; mkCC x86 false false true "1"]).
Definition dev535 := ("5254_0202_8031", mkDevice "Remotec" "ZTS-110" "Remotec ZTS-110 Z Wave Thermostat" "5254" "0202" "8031" [mkCC x00 false false true "1"; mkCC x20 false false true "1"; mkCC x31 false false true "1"; mkCC x40 false false true "1"; mkCC x42 false false true "1"; mkCC x43 false false true "1"; mkCC x44 false false true "1"; mkCC x45 false false true "1"; mkCC x70 false false true "1"; mkCC x72 false false true "1"; mkCC x80 false false true "1"; mkCC x85 false false true "1"; mkCC x86 false false true "1"]).
Definition dev536 := ("5254_0102_8377", mkDevice "Remotec" "ZXT-120AU" "Remotec ZXT-120 AC IR Remote" "5254" "0102" "8377" []).
Definition dev537 := ("5254_0101_8377", mkDevice "Remotec" "ZXT-120" "AC IR Remote" "5254" "0101" "8377" [mkCC x00 false false true "1"; mkCC x20 true false true "1"; mkCC x27 true false true "1"; mkCC x31 true false true "1"; mkCC x40 true false true "2"; mkCC x43 true false true "2"; mkCC x44 true false true "2"; mkCC x70 true false true "1"; mkCC x72 true false true "1"; mkCC x80 true false true "1"; mkCC x86 true false true "1"]).
Definition dev538 := ("5254_0100_8377", mkDevice "Remotec" "ZXT-120" "AC IR Remote" "5254" "0100" "8377" [mkCC x00 false false true "1"; mkCC x20 true false true "1"; mkCC x27 true false true "1"; mkCC x31 true false true "1"; mkCC x40 true false true "2"; mkCC x43 true false true "2"; mkCC x44 true false true "2"; mkCC x70 true false true "1"; mkCC x72 true false true "1"; mkCC x80 true false true "1"; mkCC x86 true false true "1"]).
Definition dev539 := ("0147_0400_0001", mkDevice "R-import Ltd." "RaZberry Controller 2016 ZWave+" "Z-Wave.Me Razberry daughtercard" "0147" "0400" "0001" [mkCC x00 false false true "1"; mkCC x20 false false true "0"]).
Definition dev540 := ("0147_0400_0002", mkDevice "R-import Ltd." "RaZberry Controller 2016 ZWave+" "Z-Wave.Me Razberry daughtercard" "0147" "0400" "0002" [mkCC x00 false false true "1"; mkCC x20 false false true "0"]).
Definition dev541 := ("0098_6401_0015", mkDevice "Radio Thermostat Company of America (RTC)" "CT100" "Z-Wave Thermostat" "0098" "6401" "0015" [mkCC x00 false false true "1"; mkCC x20 false false true "1"; mkCC x31 false false true "2"; mkCC x40 false false true "2"; mkCC x42 false false true "2"; mkCC x43 false false true "2"; mkCC x44 false false true "1"; mkCC x45 false false true "1"; mkCC x60 false false true "2"; mkCC x70 false false true "1"; mkCC x72 false false true "1"; mkCC x80 false false true "1"; mkCC x81 true false true "1"; mkCC x85 false false true "1"; mkCC x86 false false true "1"; mkCC x87 false false true "1"]).
Definition dev542 := ("0098_6401_0105", mkDevice "Radio Thermostat Company of America (RTC)" "CT100" "Z-Wave Thermostat" "0098" "6401" "0105" [mkCC x00 false false true "1"; mkCC x20 false false true "1"; mkCC x31 false false true "2"; mkCC x40 false false true "2"; mkCC x42 false false true "2"; mkCC x43 false false true "2"; mkCC x44 false false true "1"; mkCC x45 false false true "1"; mkCC x60 false false true "2"; mkCC x70 false false true "1"; mkCC x72 false false true "1"; mkCC x80 false false true "1"; mkCC x81 true false true "1"; mkCC x85 false false true "1"; mkCC x86 false false true "1"; mkCC x87 false false true "1"]).
Definition dev543 := ("0098_6401_0106", mkDevice "Radio Thermostat Company of America (RTC)" "CT100" "Z-Wave Thermostat" "0098" "6401" "0106" [mkCC x00 false false true "1"; mkCC x20 false false true "1"; mkCC x31 false false true "2"; mkCC x40 false false true "2"; mkCC x42 false false true "2"; mkCC x43 false false true "2"; mkCC x44 false false true "1"; mkCC x45 false false true "1"; mkCC x60 false false true "2"; mkCC x70 false false true "1"; mkCC x72 false false true "1"; mkCC x80 false false true "1"; mkCC x81 true false true "1"; mkCC x85 false false true "1"; mkCC x86 false false true "1"; mkCC x87 false false true "1"]).
Definition dev544 := ("0098_6401_0107", mkDevice "Radio Thermostat Company of America (RTC)" "CT100" "Z-Wave Thermostat" "0098" "6401" "0107" [mkCC x00 false false true "1"; mkCC x20 false false true "1"; mkCC x31 false false true "2"; mkCC x40 false false true "2"; mkCC x42 false false true "2"; mkCC x43 false false true "2"; mkCC x44 false false true "1"; mkCC x45 false false true "1"; mkCC x60 false false true "2"; mkCC x70 false false true "1"; mkCC x72 false false true "1"; mkCC x80 false false true "1"; mkCC x81 true false true "1"; mkCC x85 false false true "1"; mkCC x86 false false true "1"; mkCC x87 false false true "1"]).
Definition dev545 := ("0098_6401_01fd", mkDevice "Radio Thermostat Company of America (RTC)" "CT100" "Z-Wave Thermostat" "0098" "6401" "01FD" [mkCC x00 false false true "1"; mkCC x20 false false true "1"; mkCC x31 false false true "2"; mkCC x40 false false true "2"; mkCC x42 false false true "2"; mkCC x43 false false true "2"; mkCC x44 false false true "1"; mkCC x45 false false true "1"; mkCC x60 false false true "2"; mkCC x70 false false true "1"; mkCC x72 false false true "1"; mkCC x80 false false true "1"; mkCC x81 true false true "1"; mkCC x85 false false true "1"; mkCC x86 false false true "1"; mkCC x87 false false true "1"]).
Definition dev546 := ("0098_6501_000b", mkDevice "Radio Thermostat Company of America (RTC)" "CT100" "Z-Wave Thermostat" "0098" "6501" "000B" [mkCC x00 false false true "1"; mkCC x20 false false true "1"; mkCC x31 false false true "2"; mkCC x40 false false true "2"; mkCC x42 false false true "2"; mkCC x43 false false true "2"; mkCC x44 false false true "1"; mkCC x45 false false true "1"; mkCC x60 false false true "2"; mkCC x70 false false true "1"; mkCC x72 false false true "1"; mkCC x80 false false true "1"; mkCC x81 true false true "1"; mkCC x85 false false true "1"; mkCC x86 false false true "1"; mkCC x87 false false true "1"]).
Definition dev547 := ("0098_6501_000c", mkDevice "Radio Thermostat Company of America" "CT101" "Z-Wave Thermostat" "0098" "6501" "000C" []).
Definition dev548 := ("0098_6e02_0101", mkDevice "Radio Thermostat Company of America (RTC)" "CT110 Thermostat" "CT-110 Thermostat. RadioThermostat company." "0098" "6E02" "0101" [mkCC x00 false false true "1"; mkCC x20 false false true "1"; mkCC x31 false false true "5"; mkCC x40 false false true "2"; mkCC x42 false false true "2"; mkCC x43 false false true "2"; mkCC x44 false false true "1"; mkCC x45 false false true "1"; mkCC x60 false false true "2"; mkCC x70 false false true "1"; mkCC x72 false false true "1"; mkCC x80 false false true "1"; mkCC x81 false false true "1"; mkCC x85 false false true "1"; mkCC x86 false false true "1"; mkCC x87 false false true "1"]).
Definition dev549 := ("0098_0001_001e", mkDevice "Radio Thermostat Company of America (RTC)" "CT30" "Z-Wave Thermostat" "0098" "0001" "001E" [mkCC x00 false false true "1"; mkCC x20 false false true "1"; mkCC x31 false false true "2"; mkCC x40 false false true "2"; mkCC x42 false false true "1"; mkCC x43 false false true "2"; mkCC x44 false false true "1"; mkCC x70 false false true "1"; mkCC x72 false false true "1"; mkCC x80 false false true "1"; mkCC x81 false false true "1"; mkCC x86 false false true "1"; mkCC x87 false false true "1"]).
Definition dev550 := ("0098_1e10_0158", mkDevice "Radio Thermostat Company of America (RTC)" "CT30" "Z-Wave Thermostat" "0098" "1E10" "0158" [mkCC x00 false false true "1"; mkCC x20 false false true "1"; mkCC x31 false false true "2"; mkCC x40 false false true "2"; mkCC x42 false false true "1"; mkCC x43 false false true "2"; mkCC x44 false false true "1"; mkCC x70 false false true "1"; mkCC x72 false false true "1"; mkCC x80 false false true "1"; mkCC x81 false false true "1"; mkCC x86 false false true "1"; mkCC x87 false false true "1"]).
Definition dev551 := ("0098_1e12_015e", mkDevice "Radio Thermostat Company of America (RTC)" "CT30" "Z-Wave Thermostat" "0098" "1E12" "015E" [mkCC x00 false false true "1"; mkCC x20 false false true "1"; mkCC x31 false false true "2"; mkCC x40 false false true "2"; mkCC x42 false false true "1"; mkCC x43 false false true "2"; mkCC x44 false false true "1"; mkCC x70 false false true "1"; mkCC x72 false false true "1"; mkCC x80 false false true "1"; mkCC x81 false false true "1"; mkCC x86 false false true "1"; mkCC x87 false false true "1"]).
Definition dev552 := ("0098_3200_015e", mkDevice "Radio Thermostat Company of America (RTC)" "CT30" "Z-Wave Thermostat" "0098" "3200" "015E" [mkCC x00 false false true "1"; mkCC x20 false false true "1"; mkCC x31 false false true "2"; mkCC x40 false false true "2"; mkCC x42 false false true "1"; mkCC x43 false false true "2"; mkCC x44 false false true "1"; mkCC x70 false false true "1"; mkCC x72 false false true "1"; mkCC x80 false false true "1"; mkCC x81 false false true "1"; mkCC x86 false false true "1"; mkCC x87 false false true "1"]).
Definition dev553 := ("0098_1e12_015c", mkDevice "Radio Thermostat Company of America (RTC)" "CT30" "Z-Wave Thermostat" "0098" "1E12" "015C" [mkCC x00 false false true "1"; mkCC x20 false false true "1"; mkCC x31 false false true "2"; mkCC x40 false false true "2"; mkCC x42 false false true "1"; mkCC x43 false false true "2"; mkCC x44 false false true "1"; mkCC x70 false false true "1"; mkCC x72 false false true "1"; mkCC x80 false false true "1"; mkCC x81 false false true "1"; mkCC x86 false false true "1"; mkCC x87 false false true "1"]).
Definition dev554 := ("0098_0000_0000", mkDevice "Radio Thermostat Company of America (RTC)" "CT30" "Z-Wave Thermostat" "0098" "0000" "0000" [mkCC x00 false false true "1"; mkCC x20 false false true "1"; mkCC x31 false false true "2"; mkCC x40 false false true "2"; mkCC x42 false false true "1"; mkCC x43 false false true "2"; mkCC x44 false false true "1"; mkCC x70 false false true "1"; mkCC x72 false false true "1"; mkCC x80 false false true "1"; mkCC x81 false false true "1"; mkCC x86 false false true "1"; mkCC x87 false false true "1"]).
Definition dev555 := ("0098_2002_0100", mkDevice "Radio Thermostat Company of America (RTC)" "CT32" "Z-Wave Thermostat" "0098" "2002" "0100" [mkCC x00 false false true "1"; mkCC x20 true false true "1"; mkCC x31 true false true "5"; mkCC x40 true false true "1"; mkCC x42 true false true "1"; mkCC x43 true false true "1"; mkCC x44 true false true "1"; mkCC x45 true false true "1"; mkCC x59 true false true "1"; mkCC x5a true false true "1"; mkCC x5e true false true "1"; mkCC x60 true false true "2"; mkCC x70 true false true "1"; mkCC x72 true false true "1"; mkCC x73 true false true "1"; mkCC x80 true false true "1"; mkCC x81 true false true "1"; mkCC x85 true false true "1"; mkCC x86 true false true "1"; mkCC x87 true false true "1"]).
Definition dev556 := ("0098_2002_0102", mkDevice "Radio Thermostat Company of America (RTC)" "CT32" "Z-Wave Thermostat" "0098" "2002" "0102" [mkCC x00 false false true "1"; mkCC x20 true false true "1"; mkCC x31 true false true "5"; mkCC x40 true false true "1"; mkCC x42 true false true "1"; mkCC x43 true false true "1"; mkCC x44 true false true "1"; mkCC x45 true false true "1"; mkCC x59 true false true "1"; mkCC x5a true false true "1"; mkCC x5e true false true "1"; mkCC x60 true false true "2"; mkCC x70 true false true "1"; mkCC x72 true false true "1"; mkCC x73 true false true "1"; mkCC x80 true false true "1"; mkCC x81 true false true "1"; mkCC x85 true false true "1"; mkCC x86 true false true "1"; mkCC x87 true false true "1"]).
Definition dev557 := ("0098_0002_0100", mkDevice "Radio Thermostat Company of America (RTC)" "CT32" "Z-Wave Thermostat" "0098" "0002" "0100" [mkCC x00 false false true "1"; mkCC x20 true false true "1"; mkCC x31 true false true "5"; mkCC x40 true false true "1"; mkCC x42 true false true "1"; mkCC x43 true false true "1"; mkCC x44 true false true "1"; mkCC x45 true false true "1"; mkCC x59 true false true "1"; mkCC x5a true false true "1"; mkCC x5e true false true "1"; mkCC x60 true false true "2"; mkCC x70 true false true "1"; mkCC x72 true false true "1"; mkCC x73 true false true "1"; mkCC x80 true false true "1"; mkCC x81 true false true "1"; mkCC x85 true false true "1"; mkCC x86 true false true "1"; mkCC x87 true false true "1"]).
Definition dev558 := ("003b_634b_5044", mkDevice "Allegion" "BE369" "Keypad Deadbolt" "003B" "634B" "5044" [mkCC x00 false true true "1"; mkCC x20 false true true "1"; mkCC x62 false true true "1"; mkCC x63 false true true "1"; mkCC x70 false true true "1"; mkCC x71 false true true "1"; mkCC x73 false false true "1"; mkCC x80 false true true "1"; mkCC x85 false false true "1"; mkCC x86 false true true "1"; mkCC x98 false false true "1"]).
Definition dev559 := ("003b_6349_5044", mkDevice "Allegion" "BE468" "Touchscreen Deadbolt" "003B" "6349" "5044" [mkCC x00 false false true "1"; mkCC x20 false false true "1"; mkCC x22 false false true "1"; mkCC x62 false false true "1"; mkCC x63 false false true "1"; mkCC x70 false false true "1"; mkCC x71 false false true "3"; mkCC x72 false false true "1"; mkCC x7a false false true "1"; mkCC x80 false false true "1"; mkCC x85 false false true "1"; mkCC x86 false false true "1"; mkCC x98 false false true "1"]).
Definition dev560 := ("003b_6341_5044", mkDevice "Allegion" "BE469" "Touchscreen Deadbolt" "003B" "6341" "5044" [mkCC x00 false false true "1"; mkCC x20 false true false "1"; mkCC x22 true false true "1"; mkCC x62 false true false "1"; mkCC x63 false true false "1"; mkCC x70 false true false "1"; mkCC x71 false true false "3"; mkCC x72 true false true "1"; mkCC x7a true false true "0"; mkCC x80 false true false "1"; mkCC x85 false true false "1"; mkCC x86 true false true "1"; mkCC x98 true false true "0"]).
Definition dev561 := ("003b_634b_504c", mkDevice "Allegion" "FE599NX" "Connected Keypad with Lever" "003B" "634B" "504C" [mkCC x00 false true true "1"; mkCC x20 false true true "1"; mkCC x62 false true false "0"; mkCC x63 false true false "1"; mkCC x70 false true false "1"; mkCC x71 false true false "1"; mkCC x72 true false true "1"; mkCC x73 true false true "1"; mkCC x76 false false true "1"; mkCC x80 false true false "1"; mkCC x85 true false true "1"; mkCC x86 false true false "1"; mkCC x98 true false true "1"]).
Definition dev562 := ("0301_0048_010f", mkDevice "Seco" "Zwave Clamp" "Clamp Energy Meter" "0301" "0048" "010F" [mkCC x00 false false true "1"; mkCC x20 false false true "1"; mkCC x32 true false true "3"; mkCC x3d true false true "1"; mkCC x56 true false true "0"; mkCC x59 true false true "1"; mkCC x5a true false true "1"; mkCC x5e true false true "1"; mkCC x70 true false true "1"; mkCC x72 true false true "1"; mkCC x73 true false true "1"; mkCC x85 true false true "2"; mkCC x86 true false true "2"; mkCC x8a true false true "0"; mkCC x8b true false true "1"]).
Definition dev563 := ("019a_0003_0003", mkDevice "Sensative AB" "11-01-011" "Strips-MaZw" "019A" "0003" "0003" [mkCC x00 false false true "1"; mkCC x20 false false true "1"; mkCC x30 false false true "1"; mkCC x70 false false true "1"; mkCC x71 false false true "3"; mkCC x72 false false true "1"; mkCC x80 false false true "1"; mkCC x84 false false true "2"; mkCC x85 false false true "1"; mkCC x86 false false true "1"]).
Definition dev564 := ("0258_0003_3082", mkDevice "Shenzhen Neo Electronics Co., Ltd" "Door Sensor IN" "Door Sensor" "0258" "0003" "3082" [mkCC x00 false false true "1"; mkCC x20 false false true "1"; mkCC x30 true false true "2"; mkCC x59 true false true "1"; mkCC x5a true false true "1"; mkCC x5e true false true "1"; mkCC x70 true false true "1"; mkCC x71 true false true "8"; mkCC x72 true false true "1"; mkCC x73 true false true "1"; mkCC x80 true false true "1"; mkCC x84 true false true "2"; mkCC x85 true false true "2"; mkCC x86 true false true "2"]).
Definition dev565 := ("0258_0003_1082", mkDevice "Shenzhen Neo Electronics Co., Ltd" "Door/Window Sensor" "Door/Window Sensor" "0258" "0003" "1082" [mkCC x00 false false true "1"; mkCC x20 false false true "1"; mkCC x30 true false true "2"; mkCC x59 true false true "1"; mkCC x5a true false true "1"; mkCC x5e true false true "1"; mkCC x70 true false true "1"; mkCC x71 true false true "3"; mkCC x72 true false true "1"; mkCC x73 true false true "1"; mkCC x80 true false true "1"; mkCC x84 true false true "2"; mkCC x85 true false true "1"; mkCC x86 true false true "1"]).
Definition dev566 := ("0258_0003_1085", mkDevice "Shenzhen Neo Electronics Co., Ltd" "Flood sensor" "Flood/water sensor" "0258" "0003" "1085" [mkCC x00 false false true "1"; mkCC x20 false false true "1"; mkCC x30 false false true "2"; mkCC x59 false false true "1"; mkCC x5a false false true "1"; mkCC x5e false false true "2"; mkCC x70 false false false "1"; mkCC x71 false false true "1"; mkCC x72 false false true "2"; mkCC x73 false false true "1"; mkCC x80 false false true "1"; mkCC x84 false false true "2"; mkCC x85 false false true "2"; mkCC x86 false false true "1"]).
Definition dev567 := ("0258_0003_1083", mkDevice "Shenzhen Neo Electronics Co., Ltd" "Motion Sensor" "PIR Motion Sensor" "0258" "0003" "1083" [mkCC x00 false false true "1"; mkCC x20 false false true "1"; mkCC x30 true false true "2"; mkCC x31 true false true "7"; mkCC x59 true false true "1"; mkCC x5a true false true "1"; mkCC x5e true false true "1"; mkCC x70 true false true "1"; mkCC x71 true false true "3"; mkCC x72 true false true "1"; mkCC x73 true false true "1"; mkCC x80 true false true "1"; mkCC x84 true false true "2"; mkCC x85 true false true "1"; mkCC x86 true false true "1"]).
Definition dev568 := ("0258_0003_3083", mkDevice "Shenzhen Neo Electronics Co., Ltd" "Motion Sensor IN" "Motion Sensor IN" "0258" "0003" "3083" [mkCC x00 false false true "1"; mkCC x20 false false true "1"; mkCC x30 true false true "2"; mkCC x31 true false true "7"; mkCC x59 true false true "1"; mkCC x5a true false true "1"; mkCC x5e true false true "1"; mkCC x70 true false true "1"; mkCC x71 true false true "8"; mkCC x72 true false true "1"; mkCC x73 true false true "1"; mkCC x80 true false true "1"; mkCC x84 true false true "2"; mkCC x85 true false true "2"; mkCC x86 true false true "2"]).
Definition dev569 := ("0258_0003_0082", mkDevice "Shenzhen Neo Electronics Co., Ltd" "NAS-DS01Z" "Cyrus Door Window Sensor" "0258" "0003" "0082" [mkCC x00 false false true "1"; mkCC x20 false false true "1"; mkCC x30 true false true "2"; mkCC x59 true false true "1"; mkCC x5a true false true "1"; mkCC x5e true false true "1"; mkCC x70 true false true "1"; mkCC x71 true false true "3"; mkCC x72 true false true "1"; mkCC x73 true false true "1"; mkCC x80 true false true "1"; mkCC x84 true false true "2"; mkCC x85 true false true "1"; mkCC x86 true false true "2"]).
Definition dev570 := ("0258_0003_1087", mkDevice "Shenzhen Neo Electronics Co., Ltd" "Power Plug" "Metered Wall Plug Switch" "0258" "0003" "1087" [mkCC x00 false false true "1"; mkCC x20 true false true "1"; mkCC x25 true false true "1"; mkCC x27 true false true "1"; mkCC x32 true false true "3"; mkCC x59 true false true "1"; mkCC x5a true false true "1"; mkCC x5e true false true "1"; mkCC x70 true false true "1"; mkCC x71 true false true "3"; mkCC x72 true false true "1"; mkCC x73 true false true "1"; mkCC x85 true false true "1"; mkCC x86 true false true "1"]).
Definition dev571 := ("0258_0003_1088", mkDevice "Shenzhen Neo Electronics Co., Ltd" "Siren Alarm" "Siren Alarm" "0258" "0003" "1088" [mkCC x00 false false true "1"; mkCC x20 false false true "1"; mkCC x25 false false true "1"; mkCC x70 false false true "1"; mkCC x71 false false true "1"; mkCC x72 false false true "1"; mkCC x80 false false true "1"; mkCC x85 false false true "1"; mkCC x86 false false true "1"]).
Definition dev572 := ("0000_0003_0003", mkDevice "Sigma Designs (Former Zensys)" "K8" "Z-Wave Battery Wall Controller" "0000" "0003" "0003" [mkCC x00 false false true "1"; mkCC x20 false false true "1"; mkCC x26 true false true "1"; mkCC x30 false false false "0"; mkCC x59 true false true "1"; mkCC x5a true false true "1"; mkCC x5e true false true "1"; mkCC x72 true false true "1"; mkCC x73 true false true "1"; mkCC x7a true false true "1"; mkCC x80 true false true "1"; mkCC x84 true false true "2"; mkCC x85 true false true "1"; mkCC x86 true false true "2"]).
Definition dev573 := ("0047_5a52_5400", mkDevice "Somfy" "ZRTSI" "Z-Wave to RTS Interface Controller" "0047" "5A52" "5400" [mkCC x00 false false true "1"; mkCC x20 false false true "1"; mkCC x72 false false true "1"; mkCC x86 false false true "1"]).
Definition dev574 := ("0047_5a52_5401", mkDevice "Somfy" "ZRTSI-VNODE" "Z-Wave to RTS Interface Virtual Node" "0047" "5A52" "5401" [mkCC x00 false false true "1"; mkCC x20 false false true "1"; mkCC x25 false false true "1"; mkCC x26 false false true "3"; mkCC x2b false false true "1"; mkCC x72 false false true "1"; mkCC x86 false false true "1"]).
Definition dev575 := ("0047_5a52_5402", mkDevice "Somfy" "ZRTSI-VNODE" "Z-Wave to RTS Interface Virtual Node" "0047" "5A52" "5402" [mkCC x00 false false true "1"; mkCC x20 false false true "1"; mkCC x25 false false true "1"; mkCC x26 false false true "3"; mkCC x2b false false true "1"; mkCC x72 false false true "1"; mkCC x86 false false true "1"]).
Definition dev576 := ("0047_5a52_5403", mkDevice "Somfy" "ZRTSI-VNODE" "Z-Wave to RTS Interface Virtual Node" "0047" "5A52" "5403" [mkCC x00 false false true "1"; mkCC x20 false false true "1"; mkCC x25 false false true "1"; mkCC x26 false false true "3"; mkCC x2b false false true "1"; mkCC x72 false false true "1"; mkCC x86 false false true "1"]).
Definition dev577 := ("0047_5a52_5404", mkDevice "Somfy" "ZRTSI-VNODE" "Z-Wave to RTS Interface Virtual Node" "0047" "5A52" "5404" [mkCC x00 false false true "1"; mkCC x20 false false true "1"; mkCC x25 false false true "1"; mkCC x26 false false true "3"; mkCC x2b false false true "1"; mkCC x72 false false true "1"; mkCC x86 false false true "1"]).
Definition dev578 := ("0047_5a52_5405", mkDevice "Somfy" "ZRTSI-VNODE" "Z-Wave to RTS Interface Virtual Node" "0047" "5A52" "5405" [mkCC x00 false false true "1"; mkCC x20 false false true "1"; mkCC x25 false false true "1"; mkCC x26 false false true "3"; mkCC x2b false false true "1"; mkCC x72 false false true "1"; mkCC x86 false false true "1"]).
Definition dev579 := ("0047_5a52_5406", mkDevice "Somfy" "ZRTSI-VNODE" "Z-Wave to RTS Interface Virtual Node" "0047" "5A52" "5406" [mkCC x00 false false true "1"; mkCC x20 false false true "1"; mkCC x25 false false true "1"; mkCC x26 false false true "3"; mkCC x2b false false true "1"; mkCC x72 false false true "1"; mkCC x86 false false true "1"]).
Definition dev580 := ("0047_5a52_5407", mkDevice "Somfy" "ZRTSI-VNODE" "Z-Wave to RTS Interface Virtual Node" "0047" "5A52" "5407" [mkCC x00 false false true "1"; mkCC x20 false false true "1"; mkCC x25 false false true "1"; mkCC x26 false false true "3"; mkCC x2b false false true "1"; mkCC x72 false false true "1"; mkCC x86 false false true "1"]).
Definition dev581 := ("0047_5a52_5408", mkDevice "Somfy" "ZRTSI-VNODE" "Z-Wave to RTS Interface Virtual Node" "0047" "5A52" "5408" [mkCC x00 false false true "1"; mkCC x20 false false true "1"; mkCC x25 false false true "1"; mkCC x26 false false true "3"; mkCC x2b false false true "1"; mkCC x72 false false true "1"; mkCC x86 false false true "1"]).
Definition dev582 := ("0047_5a52_5409", mkDevice "Somfy" "ZRTSI-VNODE" "Z-Wave to RTS Interface Virtual Node" "0047" "5A52" "5409" [mkCC x00 false false true "1"; mkCC x20 false false true "1"; mkCC x25 false false true "1"; mkCC x26 false false true "3"; mkCC x2b false false true "1"; mkCC x72 false false true "1"; mkCC x86 false false true "1"]).
Definition dev583 := ("0047_5a52_540a", mkDevice "Somfy" "ZRTSI-VNODE" "Z-Wave to RTS Interface Virtual Node" "0047" "5A52" "540A" [mkCC x00 false false true "1"; mkCC x20 false false true "1"; mkCC x25 false false true "1"; mkCC x26 false false true "3"; mkCC x2b false false true "1"; mkCC x72 false false true "1"; mkCC x86 false false true "1"]).
Definition dev584 := ("0047_5a52_540b", mkDevice "Somfy" "ZRTSI-VNODE" "Z-Wave to RTS Interface Virtual Node" "0047" "5A52" "540B" [mkCC x00 false false true "1"; mkCC x20 false false true "1"; mkCC x25 false false true "1"; mkCC x26 false false true "3"; mkCC x2b false false true "1"; mkCC x72 false false true "1"; mkCC x86 false false true "1"]).
Definition dev585 := ("0047_5a52_540c", mkDevice "Somfy" "ZRTSI-VNODE" "Z-Wave to RTS Interface Virtual Node" "0047" "5A52" "540C" [mkCC x00 false false true "1"; mkCC x20 false false true "1"; mkCC x25 false false true "1"; mkCC x26 false false true "3"; mkCC x2b false false true "1"; mkCC x72 false false true "1"; mkCC x86 false false true "1"]).
Definition dev586 := ("0047_5a52_540d", mkDevice "Somfy" "ZRTSI-VNODE" "Z-Wave to RTS Interface Virtual Node" "0047" "5A52" "540D" [mkCC x00 false false true "1"; mkCC x20 false false true "1"; mkCC x25 false false true "1"; mkCC x26 false false true "3"; mkCC x2b false false true "1"; mkCC x72 false false true "1"; mkCC x86 false false true "1"]).
Definition dev587 := ("0047_5a52_540e", mkDevice "Somfy" "ZRTSI-VNODE" "Z-Wave to RTS Interface Virtual Node" "0047" "5A52" "540E" [mkCC x00 false false true "1"; mkCC x20 false false true "1"; mkCC x25 false false true "1"; mkCC x26 false false true "3"; mkCC x2b false false true "1"; mkCC x72 false false true "1"; mkCC x86 false false true "1"]).
Definition dev588 := ("0047_5a52_540f", mkDevice "Somfy" "ZRTSI-VNODE" "Z-Wave to RTS Interface Virtual Node" "0047" "5A52" "540F" [mkCC x00 false false true "1"; mkCC x20 false false true "1"; mkCC x25 false false true "1"; mkCC x26 false false true "3"; mkCC x2b false false true "1"; mkCC x72 false false true "1"; mkCC x86 false false true "1"]).
Definition dev589 := ("0047_5a52_5410", mkDevice "Somfy" "ZRTSI-VNODE" "Z-Wave to RTS Interface Virtual Node" "0047" "5A52" "5410" [mkCC x00 false false true "1"; mkCC x20 false false true "1"; mkCC x25 false false true "1"; mkCC x26 false false true "3"; mkCC x2b false false true "1"; mkCC x72 false false true "1"; mkCC x86 false false true "1"]).
Definition dev590 := ("0239_0001_0001", mkDevice "Stelpro" "STZW402" "4000W Thermostat" "0239" "0001" "0001" [mkCC x00 false false true "1"; mkCC x20 true false true "1"; mkCC x31 true false true "1"; mkCC x40 true false true "2"; mkCC x42 true false true "1"; mkCC x43 true false true "2"; mkCC x59 true false true "0"; mkCC x5a true false true "1"; mkCC x5e true false true "1"; mkCC x72 true false true "1"; mkCC x73 true false true "1"; mkCC x85 true false true "1"; mkCC x86 true false true "1"]).
Definition dev591 := ("0276_0139_0001", mkDevice "Systemair Sverige AS" "29990" "Remotely Controlled Ventilation" "0276" "0139" "0001" [mkCC x00 false false true "1"; mkCC x20 false false true "1"; mkCC x22 true false true "1"; mkCC x25 true false true "1"; mkCC x40 true false true "1"; mkCC x43 true false true "1"; mkCC x44 true false true "1"; mkCC x59 true false true "1"; mkCC x5a true false true "1"; mkCC x5e true false true "1"; mkCC x70 true false true "1"; mkCC x71 true false true "3"; mkCC x72 true false true "1"; mkCC x73 true false true "1"; mkCC x7a true false true "1"; mkCC x85 true false true "2"; mkCC x86 true false true "2"]).
Definition dev592 := ("0176_0005_0001", mkDevice "Telldus Technologies AB" "TZDW-100" "Door/window sensor" "0176" "0005" "0001" [mkCC x00 false false true "1"; mkCC x20 false false true "1"; mkCC x30 false false true "2"; mkCC x5a false false true "1"; mkCC x5e false false true "2"; mkCC x70 false false true "1"; mkCC x71 false false true "4"; mkCC x72 false false true "1"; mkCC x73 false false true "1"; mkCC x7a false false true "2"; mkCC x80 false false true "1"; mkCC x84 false false true "2"; mkCC x85 false false true "2"; mkCC x86 false false true "2"; mkCC x8e false false true "2"]).
Definition dev593 := ("0176_0003_0001", mkDevice "Telldus Technologies AB" "TZWP-100" "Wall Plug Switch" "0176" "0003" "0001" [mkCC x00 false false true "1"; mkCC x20 false false true "1"; mkCC x25 true false true "1"; mkCC x27 true false true "1"; mkCC x59 true false true "1"; mkCC x5a true false true "1"; mkCC x5e true false true "1"; mkCC x70 true false true "1"; mkCC x72 true false true "1"; mkCC x73 true false true "1"; mkCC x75 true false true "2"; mkCC x7a true false true "1"; mkCC x85 true false true "1"; mkCC x86 true false true "1"]).
Definition dev594 := ("019b_0001_0001", mkDevice "ThermoFloor" "TF016" "ZWave Thermostat" "019B" "0001" "0001" [mkCC x00 false false true "1"; mkCC x20 false false true "1"; mkCC x31 true false true "6"; mkCC x32 false false false "3"; mkCC x40 true false true "1"; mkCC x43 true false true "1"; mkCC x59 true false true "1"; mkCC x5a true false true "1"; mkCC x5e true false true "1"; mkCC x70 true false true "1"; mkCC x72 true false true "1"; mkCC x73 true false true "1"; mkCC x85 true false true "1"; mkCC x86 true false true "1"]).
Definition dev595 := ("0118_0002_0002", mkDevice "TKB Home" "TSM02" "Slim Multi-Sensor" "0118" "0002" "0002" [mkCC x00 false false true "1"; mkCC x20 false false true "1"; mkCC x30 true false true "2"; mkCC x31 true false true "5"; mkCC x70 true false true "1"; mkCC x72 true false true "1"; mkCC x80 true false true "1"; mkCC x84 true false true "2"; mkCC x85 true false true "1"; mkCC x86 true false true "1"]).
Definition dev596 := ("0118_0001_0006", mkDevice "TKB Home" "TZ08" "Rollershutter Controller" "0118" "0001" "0006" [mkCC x00 false false true "1"; mkCC x20 false false true "1"; mkCC x25 false false true "1"; mkCC x26 false false true "3"; mkCC x2b false false true "1"; mkCC x32 false false true "3"; mkCC x70 false false true "1"; mkCC x71 false false true "1"; mkCC x72 false false true "1"; mkCC x85 false false true "1"; mkCC x86 false false true "1"]).
Definition dev597 := ("0118_0311_0203", mkDevice "TKB Home" "TZ37" "Z-Wave TKB Double Relay Wall Switch" "0118" "0311" "0203" [mkCC x00 false false true "1"; mkCC x20 false false true "1"; mkCC x25 false false true "1"; mkCC x27 false false true "1"; mkCC x2b false false true "1"; mkCC x2c false false true "1"; mkCC x59 false false true "1"; mkCC x5a false false true "1"; mkCC x5e false false true "1"; mkCC x60 false false true "2"; mkCC x70 false false true "1"; mkCC x72 false false true "1"; mkCC x73 false false true "1"; mkCC x7a false false true "1"; mkCC x85 false false true "2"; mkCC x86 false false true "2"]).
Definition dev598 := ("0118_0003_0004", mkDevice "TKB Home" "TZ55D" "Dual Paddle Wall Dimmer" "0118" "0003" "0004" [mkCC x00 false false true "1"; mkCC x20 true false true "1"; mkCC x26 true false true "1"; mkCC x27 true false true "1"; mkCC x2b true false true "1"; mkCC x2c true false true "1"; mkCC x59 true false true "1"; mkCC x5a true false true "1"; mkCC x5e true false true "1"; mkCC x70 true false true "1"; mkCC x72 true false true "1"; mkCC x73 true false true "1"; mkCC x7a true false true "1"; mkCC x85 true false true "2"; mkCC x86 true false true "2"]).
Definition dev599 := ("0118_0004_0003", mkDevice "TKB Home" "TZ65D" "Dual Paddle Wall Dimmer" "0118" "0004" "0003" [mkCC x00 false false true "1"; mkCC x20 false false true "1"; mkCC x26 true false true "1"; mkCC x27 true false true "0"; mkCC x70 true false true "1"; mkCC x72 true false true "1"; mkCC x85 true false true "1"; mkCC x86 true false true "1"]).
Definition dev600 := ("0118_0808_0808", mkDevice "TKB Home" "TZ65D" "Dual Paddle Wall Dimmer" "0118" "0808" "0808" [mkCC x00 false false true "1"; mkCC x20 false false true "1"; mkCC x26 true false true "1"; mkCC x27 true false true "0"; mkCC x70 true false true "1"; mkCC x72 true false true "1"; mkCC x85 true false true "1"; mkCC x86 true false true "1"]).
Definition dev601 := ("0118_0102_1020", mkDevice "TKB Home" "TZ66D" "Dual Paddle Wall Switch" "0118" "0102" "1020" [mkCC x00 false false true "1"; mkCC x20 false false true "1"; mkCC x25 true false true "1"; mkCC x27 true false true "0"; mkCC x70 true false true "1"; mkCC x72 true false true "1"; mkCC x73 true false true "0"; mkCC x85 true false true "1"; mkCC x86 true false true "1"]).
Definition dev602 := ("0118_0003_0008", mkDevice "TKB Home" "TZ67" "Wall Plug Dimmer" "0118" "0003" "0008" [mkCC x00 false false true "1"; mkCC x20 false false true "1"; mkCC x26 true false true "1"; mkCC x27 true false true "0"; mkCC x70 true false true "1"; mkCC x72 true false true "1"; mkCC x75 true false true "0"; mkCC x77 true false true "0"; mkCC x86 true false true "1"]).
Definition dev603 := ("0118_0202_0611", mkDevice "TKB Home" "TZ67" "Wall Plug Dimmer" "0118" "0202" "0611" [mkCC x00 false false true "1"; mkCC x20 false false true "1"; mkCC x26 true false true "1"; mkCC x27 true false true "0"; mkCC x70 true false true "1"; mkCC x72 true false true "1"; mkCC x75 true false true "0"; mkCC x77 true false true "0"; mkCC x86 true false true "1"]).
Definition dev604 := ("0118_0003_0002", mkDevice "TKB Home" "TZ68" "Wall Plug" "0118" "0003" "0002" [mkCC x00 false false true "1"; mkCC x20 false false true "1"; mkCC x25 true false true "1"; mkCC x27 true false true "1"; mkCC x70 true false true "1"; mkCC x72 true false true "1"; mkCC x86 true false true "1"]).
Definition dev605 := ("0118_0101_0103", mkDevice "TKB Home" "TZ68" "Wall Plug" "0118" "0101" "0103" [mkCC x00 false false true "1"; mkCC x20 false false true "1"; mkCC x25 true false true "1"; mkCC x27 true false true "1"; mkCC x70 true false true "1"; mkCC x72 true false true "1"; mkCC x86 true false true "1"]).
Definition dev606 := ("0118_0004_0002", mkDevice "TKB Home" "TZ69" "Smart meter switch" "0118" "0004" "0002" [mkCC x00 false false true "1"; mkCC x20 false false true "1"; mkCC x25 false false true "1"; mkCC x27 false false true "1"; mkCC x32 false false true "3"; mkCC x70 false false true "1"; mkCC x72 false false true "1"; mkCC x85 false false true "1"; mkCC x86 false false true "1"]).
Definition dev607 := ("0118_0001_0001", mkDevice "TKB Home" "TZ88" "Energy Monitoring Wall Plug" "0118" "0001" "0001" [mkCC x00 false false true "1"; mkCC x20 true false true "1"; mkCC x25 true false true "1"; mkCC x27 true false true "0"; mkCC x32 true false true "3"; mkCC x70 true false true "1"; mkCC x72 true false true "1"; mkCC x85 true false true "1"; mkCC x86 true false true "1"]).
Definition dev608 := ("0118_0001_0011", mkDevice "TKB Home" "TZ88" "Energy Monitoring Wall Plug" "0118" "0001" "0011" [mkCC x00 false false true "1"; mkCC x20 true false true "1"; mkCC x25 true false true "1"; mkCC x27 true false true "0"; mkCC x32 true false true "3"; mkCC x70 true false true "1"; mkCC x72 true false true "1"; mkCC x85 true false true "1"; mkCC x86 true false true "1"]).
Definition dev609 := ("008b_5452_5435", mkDevice "Trane Corporation" "AZEMT500BB32MA" "American Standard Z-Wave Programmable Thermostat" "008B" "5452" "5435" [mkCC x00 false false true "1"; mkCC x20 true false true "1"; mkCC x2b true false true "1"; mkCC x2c true false true "1"; mkCC x31 true false true "1"; mkCC x40 true false true "1"; mkCC x42 true false true "1"; mkCC x43 true false true "1"; mkCC x44 true false true "1"; mkCC x45 true false true "1"; mkCC x70 true false true "1"; mkCC x72 true false true "1"; mkCC x73 true false true "1"; mkCC x81 true false true "1"; mkCC x85 true false true "1"; mkCC x86 true false true "1"]).
Definition dev610 := ("008b_5452_5431", mkDevice "Trane Corporation" "TZEMT400BB32MAA" "Trane Z-Wave Programmable Thermostat" "008B" "5452" "5431" [mkCC x00 false false true "1"; mkCC x20 false false true "1"; mkCC x31 true false true "1"; mkCC x40 true false true "1"; mkCC x42 true false true "1"; mkCC x43 true false true "1"; mkCC x44 true false true "1"; mkCC x45 true false true "1"; mkCC x70 true false true "1"; mkCC x72 true false true "1"; mkCC x76 true false true "0"; mkCC x81 true false true "1"; mkCC x85 true false true "1"; mkCC x86 true false true "1"]).
Definition dev611 := ("008b_5452_5433", mkDevice "Trane Corporation" "TZEMT400BB32MAA" "Trane Z-Wave Programmable Thermostat" "008B" "5452" "5433" [mkCC x00 false false true "1"; mkCC x20 false false true "1"; mkCC x31 true false true "1"; mkCC x40 true false true "1"; mkCC x42 true false true "1"; mkCC x43 true false true "1"; mkCC x44 true false true "1"; mkCC x45 true false true "1"; mkCC x70 true false true "1"; mkCC x72 true false true "1"; mkCC x76 true false true "0"; mkCC x81 true false true "1"; mkCC x85 true false true "1"; mkCC x86 true false true "1"]).
Definition dev612 := ("008b_5452_5436", mkDevice "Trane Corporation" "TZEMT400BB32MAA" "Trane Z-Wave Programmable Thermostat" "008B" "5452" "5436" [mkCC x00 false false true "1"; mkCC x20 false false true "1"; mkCC x31 true false true "1"; mkCC x40 true false true "1"; mkCC x42 true false true "1"; mkCC x43 true false true "1"; mkCC x44 true false true "1"; mkCC x45 true false true "1"; mkCC x70 true false true "1"; mkCC x72 true false true "1"; mkCC x76 true false true "0"; mkCC x81 true false true "1"; mkCC x85 true false true "1"; mkCC x86 true false true "1"]).
Definition dev613 := ("008b_5452_5439", mkDevice "Trane Corporation" "XL624" "Touchscreen Comfort Control Thermostat" "008B" "5452" "5439" [mkCC x00 false false true "1"; mkCC x20 false false true "1"; mkCC x2b false false true "1"; mkCC x31 false false true "5"; mkCC x40 false false true "1"; mkCC x42 false false true "2"; mkCC x43 false false true "2"; mkCC x44 false false true "2"; mkCC x45 false false true "1"; mkCC x70 false false true "1"; mkCC x72 false false true "1"; mkCC x85 false false true "1"; mkCC x86 false false true "1"; mkCC x8f false false true "1"]).
Definition dev614 := ("008b_5452_5443", mkDevice "Trane Corporation" "XL624" "Touchscreen Comfort Control Thermostat" "008B" "5452" "5443" [mkCC x00 false false true "1"; mkCC x20 false false true "1"; mkCC x2b false false true "1"; mkCC x31 false false true "5"; mkCC x40 false false true "1"; mkCC x42 false false true "2"; mkCC x43 false false true "2"; mkCC x44 false false true "2"; mkCC x45 false false true "1"; mkCC x70 false false true "1"; mkCC x72 false false true "1"; mkCC x85 false false true "1"; mkCC x86 false false true "1"; mkCC x8f false false true "1"]).
Definition dev615 := ("008b_5452_5442", mkDevice "Trane Corporation" "Trane XR524" "Touchscreen Comfort Control Thermostat" "008B" "5452" "5442" [mkCC x00 false false true "1"; mkCC x20 false false true "1"; mkCC x2b true false true "1"; mkCC x2c true false true "0"; mkCC x31 true false true "5"; mkCC x40 true false true "1"; mkCC x42 true false true "2"; mkCC x43 true false true "2"; mkCC x44 true false true "2"; mkCC x45 true false true "1"; mkCC x70 true false true "1"; mkCC x72 true false true "1"; mkCC x73 true false true "1"; mkCC x7a true false true "0"; mkCC x81 true false true "1"; mkCC x85 true false true "1"; mkCC x86 true false true "1"; mkCC x8f true false true "1"]).
Definition dev616 := ("0152_0003_0512", mkDevice "UFairy G.R. Tech" "GR-105" "Water Shutoff Valve" "0152" "0003" "0512" [mkCC x00 false false true "1"; mkCC x20 false false true "1"; mkCC x25 false false true "1"; mkCC x27 false false true "1"; mkCC x59 false false true "1"; mkCC x5a false false true "1"; mkCC x5e false false true "1"; mkCC x72 false false true "1"; mkCC x73 false false true "1"; mkCC x85 false false true "1"; mkCC x86 false false true "2"]).
Definition dev617 := ("0152_0500_0004", mkDevice "UFairy G.R. Tech" "GR-M-202N-2" "Inwall dual switch" "0152" "0500" "0004" [mkCC x00 false false true "1"; mkCC x20 false false true "1"; mkCC x25 false false true "1"; mkCC x27 false false true "1"; mkCC x59 false false true "1"; mkCC x5a false false true "1"; mkCC x5e false false true "1"; mkCC x60 false false true "2"; mkCC x72 false false true "1"; mkCC x73 false false true "1"; mkCC x85 false false true "2"; mkCC x86 false false true "2"]).
Definition dev618 := ("0152_0500_0003", mkDevice "UFairy G.R. Tech" "ZSE02" "Zooz Z‑Wave Plus Motion Sensor" "0152" "0500" "0003" [mkCC x00 false false true "1"; mkCC x20 false false true "1"; mkCC x30 false false true "0"; mkCC x59 true false true "1"; mkCC x5a true false true "1"; mkCC x5e true false true "1"; mkCC x71 true false true "4"; mkCC x72 true false true "1"; mkCC x73 true false true "1"; mkCC x80 true false true "1"; mkCC x84 true false true "2"; mkCC x85 true false true "2"; mkCC x86 true false true "2"]).
Definition dev619 := ("0109_2007_0703", mkDevice "Vision Security" "PID11995" "Monoprice ZWave On/Off Plugin" "0109" "2007" "0703" [mkCC x00 false false true "1"; mkCC x20 false false true "1"; mkCC x25 true false true "1"; mkCC x27 true false true "1"; mkCC x72 true false true "1"; mkCC x75 true false true "1"; mkCC x86 true false true "1"]).
Definition dev620 := ("0109_201a_1aa4", mkDevice "Vision Security" "PID15903" "Plug In Power Monitor" "0109" "201A" "1AA4" [mkCC x00 false false true "1"; mkCC x20 false false true "1"; mkCC x22 true false true "1"; mkCC x25 true false true "1"; mkCC x27 true false true "1"; mkCC x32 true false true "3"; mkCC x59 true false true "1"; mkCC x5a true false true "1"; mkCC x5e true false true "1"; mkCC x70 true false true "1"; mkCC x72 true false true "1"; mkCC x73 true false true "1"; mkCC x7a true false true "1"; mkCC x85 true false true "2"; mkCC x86 true false true "2"; mkCC x98 true false true "0"]).
Definition dev621 := ("0109_2001_0102", mkDevice "Vision Security" "ZD2102" "Door Window Sensor" "0109" "2001" "0102" [mkCC x00 true false true "1"; mkCC x20 false false true "1"; mkCC x59 true false true "1"; mkCC x5a true false true "1"; mkCC x70 false false true "1"; mkCC x71 false false true "1"; mkCC x72 false false true "1"; mkCC x7a true false true "1"; mkCC x80 false false true "1"; mkCC x84 false false true "2"; mkCC x85 false false true "1"; mkCC x86 false false true "1"; mkCC x98 true false false "0"]).
Definition dev622 := ("0109_2001_0105", mkDevice "Vision Security" "ZD2102" "Door Window Sensor" "0109" "2001" "0105" [mkCC x00 true false true "1"; mkCC x20 false false true "1"; mkCC x59 true false true "1"; mkCC x5a true false true "1"; mkCC x70 false false true "1"; mkCC x71 false false true "1"; mkCC x72 false false true "1"; mkCC x7a true false true "1"; mkCC x80 false false true "1"; mkCC x84 false false true "2"; mkCC x85 false false true "1"; mkCC x86 false false true "1"; mkCC x98 true false false "0"]).
Definition dev623 := ("0109_2001_0106", mkDevice "Vision Security" "ZD2102" "Door Window Sensor" "0109" "2001" "0106" [mkCC x00 true false true "1"; mkCC x20 false false true "1"; mkCC x59 true false true "1"; mkCC x5a true false true "1"; mkCC x70 false false true "1"; mkCC x71 false false true "1"; mkCC x72 false false true "1"; mkCC x7a true false true "1"; mkCC x80 false false true "1"; mkCC x84 false false true "2"; mkCC x85 false false true "1"; mkCC x86 false false true "1"; mkCC x98 true false false "0"]).
Definition dev624 := ("0109_2022_2201", mkDevice "Vision Security" "ZD2105" "Recessed Door Window Sensor" "0109" "2022" "2201" [mkCC x00 false false true "1"; mkCC x20 false false true "1"; mkCC x30 false false true "0"; mkCC x59 true false true "1"; mkCC x5a true false true "1"; mkCC x5e true false true "1"; mkCC x71 true false true "3"; mkCC x72 true false true "1"; mkCC x73 true false true "1"; mkCC x7a true false true "1"; mkCC x80 true false true "1"; mkCC x84 true false true "2"; mkCC x85 true false true "1"; mkCC x86 true false true "2"]).
Definition dev625 := ("0109_201f_1f10", mkDevice "Vision Security" "ZD2201" "Multisensor 4in1" "0109" "201F" "1F10" [mkCC x00 false false true "1"; mkCC x20 false false true "1"; mkCC x31 false false true "5"; mkCC x70 false false true "1"; mkCC x71 false false true "1"; mkCC x72 false false true "1"; mkCC x80 false false true "1"; mkCC x84 false false true "2"; mkCC x85 false false true "1"; mkCC x86 false false true "1"]).
Definition dev626 := ("0109_200a_0a02", mkDevice "Vision Security" "ZG8101" "Garage Door Tilt Sensor" "0109" "200A" "0A02" [mkCC x00 false false true "1"; mkCC x20 false false true "1"; mkCC x30 false false true "1"; mkCC x71 false false true "1"; mkCC x72 false false true "1"; mkCC x80 false false true "1"; mkCC x84 false false true "2"; mkCC x85 false false true "1"; mkCC x86 false false true "1"]).
Definition dev627 := ("0109_2008_0801", mkDevice "Vision Security" "ZL7101" "Lamp Dimmer Module" "0109" "2008" "0801" [mkCC x26 true false true "1"; mkCC x27 true false true "1"; mkCC x72 true false true "1"; mkCC x75 true false true "1"; mkCC x86 true false true "1"]).
Definition dev628 := ("0109_200c_0c02", mkDevice "Vision Security" "ZL7431" "In Wall Relay Switch" "0109" "200C" "0C02" [mkCC x00 false false true "1"; mkCC x20 false false true "1"; mkCC x25 true false true "1"; mkCC x27 true false true "1"; mkCC x70 true false true "1"; mkCC x72 true false true "1"; mkCC x85 true false true "1"; mkCC x86 true false true "1"]).
Definition dev629 := ("0109_200c_0c06", mkDevice "Vision Security" "ZL7431" "In Wall Relay Switch" "0109" "200C" "0C06" [mkCC x00 false false true "1"; mkCC x20 false false true "1"; mkCC x25 true false true "1"; mkCC x27 true false true "1"; mkCC x70 true false true "1"; mkCC x72 true false true "1"; mkCC x85 true false true "1"; mkCC x86 true false true "1"]).
Definition dev630 := ("0109_2016_1616", mkDevice "Vision Security" "ZL7431" "In Wall Relay Switch" "0109" "2016" "1616" [mkCC x00 false false true "1"; mkCC x20 false false true "1"; mkCC x25 true false true "1"; mkCC x27 true false true "1"; mkCC x70 true false true "1"; mkCC x72 true false true "1"; mkCC x85 true false true "1"; mkCC x86 true false true "1"]).
Definition dev631 := ("0109_2017_1717", mkDevice "Vision Security" "ZL7432" "In Wall Dual Relay Switch" "0109" "2017" "1717" [mkCC x00 false false true "1"; mkCC x20 false false true "1"; mkCC x25 false false true "1"; mkCC x27 false false true "1"; mkCC x60 false false true "2"; mkCC x72 false false true "1"; mkCC x85 false false true "1"; mkCC x86 false false true "1"]).
Definition dev632 := ("0109_2005_0503", mkDevice "Vision Security" "ZM1601" "Battery Operated Siren" "0109" "2005" "0503" [mkCC x00 false false true "1"; mkCC x20 false false true "0"; mkCC x25 false false true "1"; mkCC x59 false false true "1"; mkCC x5a false false true "1"; mkCC x5e false false true "1"; mkCC x70 false false true "1"; mkCC x71 false false true "4"; mkCC x72 false false true "1"; mkCC x73 false false true "1"; mkCC x7a false false true "1"; mkCC x80 false false true "1"; mkCC x85 false false true "2"; mkCC x86 false false true "2"]).
Definition dev633 := ("0109_2005_0508", mkDevice "Vision Security" "ZM1601" "Battery Operated Siren" "0109" "2005" "0508" [mkCC x00 false false true "1"; mkCC x20 false false true "0"; mkCC x25 false false true "1"; mkCC x59 false false true "1"; mkCC x5a false false true "1"; mkCC x5e false false true "1"; mkCC x70 false false true "1"; mkCC x71 false false true "4"; mkCC x72 false false true "1"; mkCC x73 false false true "1"; mkCC x7a false false true "1"; mkCC x80 false false true "1"; mkCC x85 false false true "2"; mkCC x86 false false true "2"]).
Definition dev634 := ("0109_2009_0903", mkDevice "Vision Security" "ZM1602" "AC/DC Siren" "0109" "2009" "0903" [mkCC x00 false false true "1"; mkCC x20 false false true "1"; mkCC x25 false false true "1"; mkCC x70 false false true "1"; mkCC x72 false false true "1"; mkCC x86 false false true "1"]).
Definition dev635 := ("0109_2009_0908", mkDevice "Vision Security" "ZM1602" "AC/DC Siren" "0109" "2009" "0908" [mkCC x00 false false true "1"; mkCC x20 false false true "1"; mkCC x25 false false true "1"; mkCC x70 false false true "1"; mkCC x72 false false true "1"; mkCC x86 false false true "1"]).
Definition dev636 := ("0109_2006_0620", mkDevice "Vision Security" "ZM1702" "Door Lock with Handle" "0109" "2006" "0620" [mkCC x20 false true false "1"; mkCC x4c false true false "1"; mkCC x4e false true false "2"; mkCC x62 false true false "1"; mkCC x63 false true false "1"; mkCC x72 true true true "1"; mkCC x80 true true true "1"; mkCC x85 false true false "1"; mkCC x86 true true true "1"; mkCC x8b false true false "1"; mkCC x98 true false true "1"]).
Definition dev637 := ("0109_2006_0621", mkDevice "Vision Security" "ZM1702" "Door Lock with Handle" "0109" "2006" "0621" [mkCC x20 false true false "1"; mkCC x4c false true false "1"; mkCC x4e false true false "2"; mkCC x62 false true false "1"; mkCC x63 false true false "1"; mkCC x72 true true true "1"; mkCC x80 true true true "1"; mkCC x85 false true false "1"; mkCC x86 true true true "1"; mkCC x8b false true false "1"; mkCC x98 true false true "1"]).
Definition dev638 := ("0109_2002_0201", mkDevice "Vision Security" "ZP3102" "Motion Sensor" "0109" "2002" "0201" [mkCC x00 false false true "1"; mkCC x20 false false true "1"; mkCC x30 false false true "1"; mkCC x31 false false true "4"; mkCC x70 false false true "1"; mkCC x71 false false true "1"; mkCC x72 false false true "1"; mkCC x80 false false true "1"; mkCC x84 false false true "2"; mkCC x85 false false true "1"; mkCC x86 false false true "1"]).
Definition dev639 := ("0109_2002_0202", mkDevice "Vision Security" "ZP3102" "Motion Sensor" "0109" "2002" "0202" [mkCC x00 false false true "1"; mkCC x20 false false true "1"; mkCC x30 false false true "1"; mkCC x31 false false true "4"; mkCC x70 false false true "1"; mkCC x71 false false true "1"; mkCC x72 false false true "1"; mkCC x80 false false true "1"; mkCC x84 false false true "2"; mkCC x85 false false true "1"; mkCC x86 false false true "1"]).
Definition dev640 := ("0109_2002_0203", mkDevice "Vision Security" "ZP3102" "Motion Sensor" "0109" "2002" "0203" [mkCC x00 false false true "1"; mkCC x20 false false true "1"; mkCC x30 false false true "1"; mkCC x31 false false true "4"; mkCC x70 false false true "1"; mkCC x71 false false true "1"; mkCC x72 false false true "1"; mkCC x80 false false true "1"; mkCC x84 false false true "2"; mkCC x85 false false true "1"; mkCC x86 false false true "1"]).
Definition dev641 := ("0109_2002_0204", mkDevice "Vision Security" "ZP3102" "Motion Sensor" "0109" "2002" "0204" [mkCC x00 false false true "1"; mkCC x20 false false true "1"; mkCC x30 false false true "1"; mkCC x31 false false true "4"; mkCC x70 false false true "1"; mkCC x71 false false true "1"; mkCC x72 false false true "1"; mkCC x80 false false true "1"; mkCC x84 false false true "2"; mkCC x85 false false true "1"; mkCC x86 false false true "1"]).
Definition dev642 := ("0109_2002_0205", mkDevice "Vision Security" "ZP3102" "Motion Sensor" "0109" "2002" "0205" [mkCC x00 false false true "1"; mkCC x20 false false true "1"; mkCC x30 false false true "1"; mkCC x31 false false true "4"; mkCC x70 false false true "1"; mkCC x71 false false true "1"; mkCC x72 false false true "1"; mkCC x80 false false true "1"; mkCC x84 false false true "2"; mkCC x85 false false true "1"; mkCC x86 false false true "1"]).
Definition dev643 := ("0109_2003_0302", mkDevice "Vision Security" "ZP3103" "Shock Sensor" "0109" "2003" "0302" [mkCC x00 false false true "1"; mkCC x20 false false true "1"; mkCC x30 false false true "1"; mkCC x71 false false true "1"; mkCC x72 false false true "1"; mkCC x80 false false true "1"; mkCC x84 false false true "2"; mkCC x85 false false true "1"; mkCC x86 false false true "1"]).
Definition dev644 := ("0109_2003_0306", mkDevice "Vision Security" "ZS5101" "Shock Sensor" "0109" "2003" "0306" [mkCC x00 false false true "1"; mkCC x20 false false true "1"; mkCC x30 false false true "0"; mkCC x59 true false true "1"; mkCC x5a true false true "1"; mkCC x5e true false true "1"; mkCC x71 true false true "4"; mkCC x72 true false true "1"; mkCC x73 true false true "1"; mkCC x7a true false true "1"; mkCC x80 true false true "1"; mkCC x84 true false true "2"; mkCC x85 true false true "2"; mkCC x86 true false true "2"; mkCC x98 true false true "0"]).
Definition dev645 := ("0109_2003_0307", mkDevice "Vision Security" "ZS5101" "Shock Sensor" "0109" "2003" "0307" [mkCC x00 false false true "1"; mkCC x20 false false true "1"; mkCC x30 false false true "0"; mkCC x59 true false true "1"; mkCC x5a true false true "1"; mkCC x5e true false true "1"; mkCC x71 true false true "4"; mkCC x72 true false true "1"; mkCC x73 true false true "1"; mkCC x7a true false true "1"; mkCC x80 true false true "1"; mkCC x84 true false true "2"; mkCC x85 true false true "2"; mkCC x86 true false true "2"; mkCC x98 true false true "0"]).
Definition dev646 := ("0109_2004_0403", mkDevice "Vision Security" "ZS6101" "Smoke Detector" "0109" "2004" "0403" [mkCC x00 false false true "1"; mkCC x20 false false true "1"; mkCC x30 false false true "1"; mkCC x71 false false true "1"; mkCC x72 false false true "1"; mkCC x80 false false true "1"; mkCC x84 false false true "2"; mkCC x85 false false true "1"; mkCC x86 false false true "1"]).
Definition dev647 := ("0109_200f_0f03", mkDevice "Vision Security" "ZS6301" "CO Detector" "0109" "200F" "0F03" [mkCC x00 false false true "1"; mkCC x20 false false true "1"; mkCC x30 true false true "1"; mkCC x71 true false true "2"; mkCC x72 true false true "1"; mkCC x80 true false true "1"; mkCC x84 true false true "2"; mkCC x85 true false true "1"; mkCC x86 true false true "1"]).
Definition dev648 := ("0109_2021_2101", mkDevice "Vision Security" "ZSE40" "Zooz 4-in-one motion/temperature/humidity/luminance sensor" "0109" "2021" "2101" [mkCC x00 false false true "1"; mkCC x20 false false true "1"; mkCC x31 false false true "7"; mkCC x59 false false true "1"; mkCC x5a false false true "1"; mkCC x5e false false true "2"; mkCC x70 false false true "1"; mkCC x71 false false true "1"; mkCC x72 false false true "1"; mkCC x73 false false true "1"; mkCC x80 false false true "1"; mkCC x84 false false true "2"; mkCC x85 false false true "2"; mkCC x86 false false true "2"; mkCC x98 false false true "1"]).
Definition dev649 := ("0109_200d_0d03", mkDevice "Vision Security" "ZW4101" "Drapery controller (up/stop/down)" "0109" "200D" "0D03" [mkCC x00 false false true "1"; mkCC x20 false false true "1"; mkCC x25 false false true "1"; mkCC x26 false false true "3"; mkCC x70 false false true "1"; mkCC x72 false false true "1"; mkCC x86 false false true "1"]).
Definition dev650 := ("0149_0012_0104", mkDevice "wiDom" "WiDom Universal Relay Switch" "WiDom Universal Relay Switch" "0149" "0012" "0104" [mkCC x00 false false true "1"; mkCC x20 false false true "1"; mkCC x25 false false true "1"; mkCC x27 false false true "1"; mkCC x70 false false true "1"; mkCC x72 false false true "1"; mkCC x77 false false true "1"; mkCC x85 false false true "1"; mkCC x86 false false true "1"]).
Definition dev651 := ("0149_1214_0504", mkDevice "wiDom" "WDS" " Universal Double Switch" "0149" "1214" "0504" [mkCC x00 false false true "1"; mkCC x20 false false true "1"; mkCC x25 false false true "1"; mkCC x27 false false true "1"; mkCC x32 false false true "3"; mkCC x60 false false true "2"; mkCC x70 false false true "1"; mkCC x72 false false true "1"; mkCC x85 false false true "1"; mkCC x86 false false true "1"]).
Definition dev652 := ("0149_1214_0304", mkDevice "wiDom" "WPS104" "Energy Driven Switch" "0149" "1214" "0304" [mkCC x00 false false true "1"; mkCC x20 false false true "0"; mkCC x25 false false true "1"; mkCC x27 false false true "1"; mkCC x31 false false true "3"; mkCC x32 false false true "3"; mkCC x59 false false true "1"; mkCC x5a false false true "1"; mkCC x5e false false true "1"; mkCC x70 false false true "1"; mkCC x72 false false true "1"; mkCC x73 false false true "1"; mkCC x7a false false true "1"; mkCC x85 false false true "2"; mkCC x86 false false true "2"]).
Definition dev653 := ("015d_0651_f51c", mkDevice "Willis Electric Co., Ltd." "ZEN20" "Smart Energy Power Strip" "015D" "0651" "F51C" [mkCC x20 false false false "0"; mkCC x25 false false false "1"]).
Definition dev654 := ("015d_0111_231c", mkDevice "Willis Electric Co., Ltd." "ZEN21" "Zooz Z-Wave On / Off Light Switch ZEN21" "015D" "0111" "231C" [mkCC x00 false false true "1"; mkCC x20 false false true "1"; mkCC x25 true false true "1"; mkCC x27 true false true "1"; mkCC x59 true false true "1"; mkCC x5a true false true "1"; mkCC x5e true false true "1"; mkCC x70 true false true "1"; mkCC x72 true false true "1"; mkCC x73 true false true "1"; mkCC x85 true false true "2"; mkCC x86 true false true "2"]).
Definition dev655 := ("015d_1111_1e1c", mkDevice "Willis Electric Co., Ltd." "ZEN23" "Wall mounted switch" "015D" "1111" "1E1C" [mkCC x00 false false true "1"; mkCC x20 false false true "1"; mkCC x25 true false true "1"; mkCC x27 true false true "1"; mkCC x59 true false true "1"; mkCC x5a true false true "1"; mkCC x5e true false true "1"; mkCC x70 true false true "1"; mkCC x72 true false true "1"; mkCC x73 true false true "1"; mkCC x85 true false true "2"; mkCC x86 true false true "2"]).
Definition dev656 := ("015d_0111_1f1c", mkDevice "Willis Electric Co., Ltd." "Zen24" "Toggle Dimmer" "015D" "0111" "1F1C" [mkCC x00 false false true "1"; mkCC x20 false false true "1"; mkCC x26 true false true "1"; mkCC x27 true false true "1"; mkCC x59 true false true "1"; mkCC x5a true false true "1"; mkCC x5e true false true "1"; mkCC x70 true false true "1"; mkCC x72 true false true "1"; mkCC x73 true false true "1"; mkCC x85 true false true "2"; mkCC x86 true false true "2"]).
Definition dev657 := ("015d_0221_251c", mkDevice "Willis Electric Co., Ltd." "ZW37" "show home, Inovelli 2 channel smart plug" "015D" "0221" "251C" [mkCC x00 false false true "1"; mkCC x20 false false true "0"; mkCC x25 false false true "1"; mkCC x27 false false true "1"; mkCC x59 false false true "1"; mkCC x5a false false true "1"; mkCC x5e false false true "1"; mkCC x60 false false true "2"; mkCC x72 false false true "1"; mkCC x73 false false true "1"; mkCC x85 false false true "2"; mkCC x86 false false true "2"; mkCC x8e false false true "3"]).
Definition dev658 := ("0097_1122_5501", mkDevice "Wintop" "iModuleDouble" "Dual In-wall Switch" "0097" "1122" "5501" [mkCC x00 true false true "1"; mkCC x20 true false true "1"; mkCC x25 true false true "1"; mkCC x27 true false true "1"; mkCC x2b true false true "1"; mkCC x2c true false true "1"; mkCC x60 true false true "2"; mkCC x72 true false true "1"; mkCC x86 true false true "1"]).
Definition dev659 := ("0097_6943_5501", mkDevice "Wintop" "PlugInSwitch" "PlugIn Switch with power monitoring" "0097" "6943" "5501" [mkCC x00 false false true "1"; mkCC x20 false false true "1"; mkCC x25 true false true "1"; mkCC x27 true false true "1"; mkCC x31 true false true "1"; mkCC x32 true false true "2"; mkCC x70 true false true "1"; mkCC x72 true false true "1"; mkCC x73 true false true "1"; mkCC x75 true false true "1"; mkCC x85 true false true "1"; mkCC x86 true false true "1"]).
Definition dev660 := ("0097_1200_5502", mkDevice "Wintop" "DHSZWDMIW01" "DHS Z-Wave Micro Dimmer" "0097" "1200" "5502" [mkCC x00 false false true "1"; mkCC x20 false false true "1"; mkCC x26 false false true "1"; mkCC x27 false false true "1"; mkCC x2b false false true "1"; mkCC x70 false false true "1"; mkCC x72 false false true "1"; mkCC x85 false false true "1"; mkCC x86 false false true "1"]).
Definition dev661 := ("0097_6943_4501", mkDevice "Wintop" "EasyPlug" "Wall Plug" "0097" "6943" "4501" [mkCC x00 false false true "1"; mkCC x20 false false true "1"; mkCC x25 true false true "1"; mkCC x27 true false true "1"; mkCC x31 true false true "1"; mkCC x32 true false true "2"; mkCC x70 true false true "1"; mkCC x72 true false true "1"; mkCC x73 true false true "1"; mkCC x75 true false true "1"; mkCC x85 true false true "1"; mkCC x86 true false true "1"]).
Definition dev662 := ("0097_0024_0045", mkDevice "Wintop" "iShutter" "Wintop iShutter" "0097" "0024" "0045" []).
Definition dev663 := ("0097_1182_4501", mkDevice "Wintop" "ITEMP" "Contact and temperature sensor" "0097" "1182" "4501" [mkCC x00 false false true "1"; mkCC x20 false false true "1"; mkCC x30 true false true "1"; mkCC x31 true false true "1"; mkCC x70 true false true "1"; mkCC x71 true false true "1"; mkCC x72 true false true "1"; mkCC x80 true false true "1"; mkCC x84 true false true "1"; mkCC x85 true false true "1"; mkCC x86 true false true "1"]).
Definition dev664 := ("0097_1188_4501", mkDevice "Wintop" "ITEMP" "Contact and temperature sensor" "0097" "1188" "4501" [mkCC x00 false false true "1"; mkCC x20 false false true "1"; mkCC x30 true false true "1"; mkCC x31 true false true "1"; mkCC x70 true false true "1"; mkCC x71 true false true "1"; mkCC x72 true false true "1"; mkCC x80 true false true "1"; mkCC x84 true false true "1"; mkCC x85 true false true "1"; mkCC x86 true false true "1"]).
Definition dev665 := ("0097_6941_5501", mkDevice "Wintop" "LE120" "Appliance Module" "0097" "6941" "5501" [mkCC x00 false false true "1"; mkCC x20 false false true "1"; mkCC x25 true false true "1"; mkCC x27 true false true "1"; mkCC x72 true false true "1"]).
Definition dev666 := ("0097_1180_5501", mkDevice "Wintop" "Multisensor" "Wintop Multi-sensor" "0097" "1180" "5501" [mkCC x00 false false true "1"; mkCC x20 false false true "1"; mkCC x30 true false true "1"; mkCC x31 true false true "1"; mkCC x60 true false true "2"; mkCC x70 true false true "1"; mkCC x71 true false true "1"; mkCC x72 true false true "1"; mkCC x80 true false true "1"; mkCC x84 true false true "1"; mkCC x85 true false true "1"; mkCC x86 true false true "1"]).
Definition dev667 := ("0097_6131_4501", mkDevice "Wintop" "WTRFID" "Mini Keypad RFID/Z-Wave" "0097" "6131" "4501" [mkCC x00 false false true "1"; mkCC x20 false false true "1"; mkCC x25 true false true "1"; mkCC x63 true false true "1"; mkCC x70 true false true "1"; mkCC x71 true false true "2"; mkCC x72 true false true "1"; mkCC x76 false false true "1"; mkCC x80 true false true "1"; mkCC x84 true false true "1"; mkCC x85 true false true "1"; mkCC x86 true false true "1"]).
Definition dev668 := ("0129_0006_0000", mkDevice "ASSA ABLOY" "YKFCON" "Smart Living Keyfree Smart Lock" "0129" "0006" "0000" [mkCC x00 false false true "1"; mkCC x20 false false true "1"; mkCC x4c true true false "1"; mkCC x4e true true false "3"; mkCC x62 false true false "1"; mkCC x63 false true false "1"; mkCC x70 false true false "1"; mkCC x71 false true false "1"; mkCC x72 true false true "1"; mkCC x75 false true false "2"; mkCC x76 false true false "1"; mkCC x80 false true false "1"; mkCC x85 false true false "1"; mkCC x86 true false true "1"; mkCC x8a false true false "2"; mkCC x8b false true false "1"; mkCC x98 true true true "1"]).
Definition dev669 := ("0129_0004_0800", mkDevice "Yale Locks" "YRD110" "Yale button deadbolt without keyway" "0129" "0004" "0800" [mkCC x00 false false true "1"; mkCC x20 false false true "1"; mkCC x72 false false true "1"; mkCC x86 false false true "1"]).
Definition dev670 := ("0129_0002_0800", mkDevice "ASSA ABLOY" "YRD120" "Touchscreen deadbolt without key" "0129" "0002" "0800" [mkCC x00 false false true "1"; mkCC x20 false true false "1"; mkCC x4c false true false "1"; mkCC x4e false true false "1"; mkCC x62 false true false "1"; mkCC x63 false true false "1"; mkCC x70 false true true "1"; mkCC x71 false true true "1"; mkCC x72 true true true "1"; mkCC x75 false true true "1"; mkCC x80 false false true "1"; mkCC x86 false false true "1"; mkCC x8a false true false "1"; mkCC x8b false true false "1"; mkCC x98 true true true "1"]).
Definition dev671 := ("0129_0004_0000", mkDevice "ASSA ABLOY" "YRD210" "Push Button Deadbolt" "0129" "0004" "0000" [mkCC x00 false false true "1"; mkCC x20 false false true "1"; mkCC x62 false false true "1"; mkCC x63 false false true "1"; mkCC x70 false false true "1"; mkCC x71 false false true "1"; mkCC x72 false false true "1"; mkCC x75 false false true "1"; mkCC x76 false false true "1"; mkCC x80 false false true "1"; mkCC x85 false false true "1"; mkCC x86 false false true "1"; mkCC x98 false false true "1"]).
Definition dev672 := ("0129_0004_aa00", mkDevice "ASSA ABLOY" "YRD210" "Push Button Deadbolt" "0129" "0004" "AA00" [mkCC x00 false false true "1"; mkCC x20 false false true "1"; mkCC x62 false false true "1"; mkCC x63 false false true "1"; mkCC x70 false false true "1"; mkCC x71 false false true "1"; mkCC x72 false false true "1"; mkCC x75 false false true "1"; mkCC x76 false false true "1"; mkCC x80 false false true "1"; mkCC x85 false false true "1"; mkCC x86 false false true "1"; mkCC x98 false false true "1"]).
Definition dev673 := ("0129_0002_0000", mkDevice "ASSA ABLOY" "YRD220" "Yale Real Living Touchscreen Deadbolt" "0129" "0002" "0000" [mkCC x00 false true true "1"; mkCC x20 false false true "1"; mkCC x4c false true false "0"; mkCC x4e false true false "0"; mkCC x62 false true true "1"; mkCC x63 false true true "1"; mkCC x70 false true true "1"; mkCC x71 false true true "1"; mkCC x72 true true true "1"; mkCC x75 false true true "1"; mkCC x76 false false true "1"; mkCC x80 false true true "1"; mkCC x85 false true true "1"; mkCC x86 true true true "1"; mkCC x8a false true false "0"; mkCC x8b false true false "0"; mkCC x98 true false true "1"]).
Definition dev674 := ("0129_0002_0209", mkDevice "ASSA ABLOY" "YRD220" "Yale Real Living Touchscreen Deadbolt" "0129" "0002" "0209" [mkCC x00 false true true "1"; mkCC x20 false false true "1"; mkCC x4c false true false "0"; mkCC x4e false true false "0"; mkCC x62 false true true "1"; mkCC x63 false true true "1"; mkCC x70 false true true "1"; mkCC x71 false true true "1"; mkCC x72 true true true "1"; mkCC x75 false true true "1"; mkCC x76 false false true "1"; mkCC x80 false true true "1"; mkCC x85 false true true "1"; mkCC x86 true true true "1"; mkCC x8a false true false "0"; mkCC x8b false true false "0"; mkCC x98 true false true "1"]).
Definition dev675 := ("0129_0002_aa00", mkDevice "ASSA ABLOY" "YRD220" "Yale Real Living Touchscreen Deadbolt" "0129" "0002" "AA00" [mkCC x00 false true true "1"; mkCC x20 false false true "1"; mkCC x4c false true false "0"; mkCC x4e false true false "0"; mkCC x62 false true true "1"; mkCC x63 false true true "1"; mkCC x70 false true true "1"; mkCC x71 false true true "1"; mkCC x72 true true true "1"; mkCC x75 false true true "1"; mkCC x76 false false true "1"; mkCC x80 false true true "1"; mkCC x85 false true true "1"; mkCC x86 true true true "1"; mkCC x8a false true false "0"; mkCC x8b false true false "0"; mkCC x98 true false true "1"]).
Definition dev676 := ("0129_0002_ffff", mkDevice "ASSA ABLOY" "YRD220" "Yale Real Living Touchscreen Deadbolt" "0129" "0002" "FFFF" [mkCC x00 false true true "1"; mkCC x20 false false true "1"; mkCC x4c false true false "0"; mkCC x4e false true false "0"; mkCC x62 false true true "1"; mkCC x63 false true true "1"; mkCC x70 false true true "1"; mkCC x71 false true true "1"; mkCC x72 true true true "1"; mkCC x75 false true true "1"; mkCC x76 false false true "1"; mkCC x80 false true true "1"; mkCC x85 false true true "1"; mkCC x86 true true true "1"; mkCC x8a false true false "0"; mkCC x8b false true false "0"; mkCC x98 true false true "1"]).
Definition dev677 := ("0129_0001_0409", mkDevice "ASSA ABLOY" "YRL220" "Yale Real Living Touchscreen Lever Lock" "0129" "0001" "0409" [mkCC x00 false true true "1"; mkCC x20 false false true "1"; mkCC x4c false true false "0"; mkCC x4e false true false "0"; mkCC x62 false true true "1"; mkCC x63 false true true "1"; mkCC x70 false true true "1"; mkCC x71 false true true "0"; mkCC x72 true true true "1"; mkCC x75 false true true "1"; mkCC x76 false false true "1"; mkCC x80 false true true "1"; mkCC x85 false true true "1"; mkCC x86 true true true "1"; mkCC x8a false true false "0"; mkCC x8b false true false "0"; mkCC x98 true false true "1"]).
Definition dev678 := ("0129_842a_3cac", mkDevice "ASSA ABLOY" "YRL220" "Yale Real Living Touchscreen Lever Lock" "0129" "842A" "3CAC" [mkCC x00 false true true "1"; mkCC x20 false false true "1"; mkCC x4c false true false "0"; mkCC x4e false true false "0"; mkCC x62 false true true "1"; mkCC x63 false true true "1"; mkCC x70 false true true "1"; mkCC x71 false true true "0"; mkCC x72 true true true "1"; mkCC x75 false true true "1"; mkCC x76 false false true "1"; mkCC x80 false true true "1"; mkCC x85 false true true "1"; mkCC x86 true true true "1"; mkCC x8a false true false "0"; mkCC x8b false true false "0"; mkCC x98 true false true "1"]).
Definition dev679 := ("0131_0002_0002", mkDevice "Zipato" "RGBWE27ZW" "RGBW bulb" "0131" "0002" "0002" [mkCC x00 false false true "1"; mkCC x20 false false true "1"; mkCC x26 true false true "2"; mkCC x33 true false true "1"; mkCC x59 true false true "0"; mkCC x5a true false true "0"; mkCC x5e true false true "0"; mkCC x70 true false true "1"; mkCC x72 true false true "1"; mkCC x73 true false true "0"; mkCC x7a true false true "0"; mkCC x85 true false true "1"; mkCC x86 true false true "1"]).
Definition dev680 := ("027a_0101_000a", mkDevice "Zooz" "ZEN06" "Smart Plug with 2 USB ports" "027A" "0101" "000A" [mkCC x00 false false true "1"; mkCC x20 false false true "1"; mkCC x25 false false true "1"; mkCC x27 false false true "1"; mkCC x2b false false true "1"; mkCC x32 false false true "3"; mkCC x70 false false true "1"; mkCC x72 false false true "1"; mkCC x85 false false true "1"; mkCC x86 false false true "1"]).
Definition dev681 := ("027a_0003_0087", mkDevice "Zooz" "ZEN07" "Zooz Z-Wave Plus Mini Plug On / Off Module ZEN07" "027A" "0003" "0087" [mkCC x00 false false true "1"; mkCC x20 true false true "1"; mkCC x25 true false true "1"; mkCC x27 true false true "1"; mkCC x32 true false true "3"; mkCC x59 true false true "1"; mkCC x5a true false true "1"; mkCC x5e true false true "1"; mkCC x70 true false true "1"; mkCC x71 true false true "4"; mkCC x72 true false true "1"; mkCC x73 true false true "1"; mkCC x85 true false true "2"; mkCC x86 true false true "2"]).
Definition dev682 := ("027a_0003_0082", mkDevice "Zooz" "ZSE08" "Zooz Z-Wave Plus Contact Sensor" "027A" "0003" "0082" [mkCC x00 false false true "1"; mkCC x20 false false true "1"; mkCC x30 true false true "2"; mkCC x59 true false true "1"; mkCC x5a true false true "1"; mkCC x5e true false true "1"; mkCC x70 true false true "1"; mkCC x71 true false true "4"; mkCC x72 true false true "1"; mkCC x73 true false true "1"; mkCC x80 true false true "1"; mkCC x84 true false true "2"; mkCC x85 true false true "2"; mkCC x86 true false true "2"]).
Definition dev683 := ("027a_0083_0003", mkDevice "Zooz" "ZSE09" "Zooz Z-Wave Motion and Light Mini Sensor" "027A" "0083" "0003" [mkCC x20 false false true "0"; mkCC x30 false false true "2"; mkCC x31 false false true "7"; mkCC x59 false false true "0"; mkCC x5a false false true "0"; mkCC x5e false false true "2"; mkCC x70 false false true "0"; mkCC x72 false false true "2"; mkCC x73 false false true "0"; mkCC x80 false false true "0"; mkCC x84 false false true "2"; mkCC x85 false false true "2"; mkCC x86 false false true "2"]).
Definition dev684 := ("027a_0003_0000", mkDevice "Zooz" "ZSE30" "Water Sensor" "027A" "0003" "0000" [mkCC x00 false false true "1"; mkCC x20 false false true "1"; mkCC x30 true false true "2"; mkCC x59 true false true "1"; mkCC x5a true false true "1"; mkCC x5e true false true "1"; mkCC x70 true false true "1"; mkCC x71 true false true "8"; mkCC x72 true false true "1"; mkCC x73 true false true "1"; mkCC x80 true false true "1"; mkCC x84 true false true "2"; mkCC x85 true false true "2"; mkCC x86 true false true "2"]).
Definition dev685 := ("027a_0003_0085", mkDevice "Zooz" "ZSE30" "Water Sensor" "027A" "0003" "0085" [mkCC x00 false false true "1"; mkCC x20 false false true "1"; mkCC x30 true false true "2"; mkCC x59 true false true "1"; mkCC x5a true false true "1"; mkCC x5e true false true "1"; mkCC x70 true false true "1"; mkCC x71 true false true "8"; mkCC x72 true false true "1"; mkCC x73 true false true "1"; mkCC x80 true false true "1"; mkCC x84 true false true "2"; mkCC x85 true false true "2"; mkCC x86 true false true "2"]).
Definition dev686 := ("027a_2021_2101", mkDevice "Zooz" "ZSE40" "4-in-1 Sensor" "027A" "2021" "2101" [mkCC x00 false false true "1"; mkCC x20 false false true "1"; mkCC x30 false false true "0"; mkCC x31 true false true "7"; mkCC x59 true false true "1"; mkCC x5a true false true "1"; mkCC x5e true false true "1"; mkCC x70 true false true "1"; mkCC x71 true false true "4"; mkCC x72 true false true "1"; mkCC x73 true false true "1"; mkCC x7a true false true "1"; mkCC x80 true false true "1"; mkCC x84 true false true "2"; mkCC x85 true false true "2"; mkCC x86 true false true "2"]).
Definition dev687 := ("0115_1000_0003", mkDevice "Z-Wave.Me" "06436" "Insert blind control" "0115" "1000" "0003" [mkCC x00 false false true "1"; mkCC x20 false false true "1"; mkCC x25 true false true "1"; mkCC x26 true false true "1"; mkCC x27 true false true "1"; mkCC x70 true false true "1"; mkCC x72 true false true "1"; mkCC x75 true false true "1"; mkCC x82 true false true "1"; mkCC x85 true false true "1"; mkCC x86 true false true "1"; mkCC x87 true false true "1"]).
Definition dev688 := ("0115_0100_0001", mkDevice "Z-Wave.Me" "KFOB" "4 button keyfob" "0115" "0100" "0001" [mkCC x00 false false true "1"; mkCC x20 false false true "1"; mkCC x5b false false true "1"; mkCC x70 false false true "1"; mkCC x72 false false true "1"; mkCC x80 false false true "1"; mkCC x84 false false true "2"; mkCC x85 false false true "1"; mkCC x86 false false true "1"; mkCC x8f false false true "1"]).
Definition dev689 := ("0115_0100_0002", mkDevice "Z-Wave.Me" "KFOB" "4 button keyfob" "0115" "0100" "0002" [mkCC x00 false false true "1"; mkCC x20 false false true "1"; mkCC x5b false false true "1"; mkCC x70 false false true "1"; mkCC x72 false false true "1"; mkCC x80 false false true "1"; mkCC x84 false false true "2"; mkCC x85 false false true "1"; mkCC x86 false false true "1"; mkCC x8f false false true "1"]).
Definition dev690 := ("0115_0000_0000", mkDevice "Z-Wave.Me" "KFOB-C" "Keyfob" "0115" "0000" "0000" [mkCC x00 false false true "1"; mkCC x20 false false true "1"; mkCC x5b false false true "1"; mkCC x70 false false true "1"; mkCC x72 false false true "1"; mkCC x80 false false true "1"; mkCC x84 false false true "2"; mkCC x85 false false true "1"; mkCC x86 false false true "1"; mkCC x8f false false true "1"]).
Definition dev691 := ("0115_0100_0101", mkDevice "Z-Wave.Me" "WALLC-S" "Wall Controller" "0115" "0100" "0101" [mkCC x00 false false true "1"; mkCC x20 false false true "1"; mkCC x26 false false true "0"; mkCC x2b false false true "0"; mkCC x2d false false true "0"; mkCC x5b false false true "0"; mkCC x70 false false true "1"; mkCC x72 false false true "1"; mkCC x80 false false true "1"; mkCC x84 false false true "2"; mkCC x85 false false true "1"; mkCC x86 false false true "1"; mkCC x8f false false true "1"]).
Definition dev692 := ("0115_0100_0004", mkDevice "Z-Wave.Me" "WCD2" "Double Paddle Wall Controller" "0115" "0100" "0004" [mkCC x00 false false true "1"; mkCC x20 false false true "1"; mkCC x2b false false true "0"; mkCC x70 false false true "1"; mkCC x72 false false true "1"; mkCC x80 false false true "1"; mkCC x84 false false true "2"; mkCC x85 false false true "1"; mkCC x86 false false true "1"]).
Definition dev693 := ("0115_1000_0001", mkDevice "Z-Wave.Me" "ZME_05431" "Flush mountable switch" "0115" "1000" "0001" [mkCC x00 false false true "1"; mkCC x20 true false true "1"; mkCC x25 true false true "1"; mkCC x27 true false true "0"; mkCC x2b true false true "1"; mkCC x2c true false true "0"; mkCC x2d true false true "0"; mkCC x70 true false true "1"; mkCC x72 true false true "1"; mkCC x75 true false true "0"; mkCC x77 true false true "0"; mkCC x85 true false true "1"; mkCC x86 true false true "1"; mkCC x87 true false true "0"; mkCC x8e true false true "0"]).
Definition dev694 := ("0115_1000_0002", mkDevice "Z-Wave.Me" "ZME_05433" "Zwave.Me Dimmer Set Everlux" "0115" "1000" "0002" [mkCC x00 false false true "1"; mkCC x20 true false true "1"; mkCC x26 true false true "2"; mkCC x27 true false true "1"; mkCC x2b true false true "1"; mkCC x2c true false true "0"; mkCC x2d true false true "0"; mkCC x70 true false true "1"; mkCC x72 true false true "1"; mkCC x75 true false true "1"; mkCC x77 true false true "1"; mkCC x85 true false true "1"; mkCC x86 true false true "1"; mkCC x87 true false true "1"; mkCC x8e true false true "0"]).
Definition dev695 := ("0115_1000_0009", mkDevice "Z-Wave.Me" "ZME_05433" "Zwave.Me Dimmer Set Everlux" "0115" "1000" "0009" [mkCC x00 false false true "1"; mkCC x20 true false true "1"; mkCC x26 true false true "2"; mkCC x27 true false true "1"; mkCC x2b true false true "1"; mkCC x2c true false true "0"; mkCC x2d true false true "0"; mkCC x70 true false true "1"; mkCC x72 true false true "1"; mkCC x75 true false true "1"; mkCC x77 true false true "1"; mkCC x85 true false true "1"; mkCC x86 true false true "1"; mkCC x87 true false true "1"; mkCC x8e true false true "0"]).
Definition dev696 := ("0115_1000_0100", mkDevice "Z-Wave.Me" "ZME_05461" "Double switch" "0115" "1000" "0100" [mkCC x00 false false true "1"; mkCC x20 true false true "1"; mkCC x25 true false true "1"; mkCC x27 true false true "1"; mkCC x32 true false true "3"; mkCC x60 true false true "2"; mkCC x70 true false true "1"; mkCC x72 true false true "1"; mkCC x75 true false true "1"; mkCC x85 true false true "2"; mkCC x86 true false true "1"; mkCC x8e true false true "2"]).
Definition dev697 := ("0115_1000_0200", mkDevice "Z-Wave.Me" "ZME_06437" "Wall Plug Switch" "0115" "1000" "0200" [mkCC x00 false false true "1"; mkCC x20 true false true "1"; mkCC x25 true false true "1"; mkCC x27 true false true "1"; mkCC x32 true false true "3"; mkCC x59 true false true "1"; mkCC x5a true false true "1"; mkCC x5e true false true "1"; mkCC x70 true false true "1"; mkCC x72 true false true "1"; mkCC x73 false false true "0"; mkCC x75 true false true "1"; mkCC x85 true false true "1"; mkCC x86 true false true "1"; mkCC x87 true false true "1"; mkCC x8e true false true "1"]).
Definition dev698 := ("0115_0400_0004", mkDevice "Z-Wave.Me" "ZME_06443" "Single Paddle Wall Controller" "0115" "0400" "0004" [mkCC x00 false false true "1"; mkCC x20 false false true "1"; mkCC x2b false false true "0"; mkCC x70 true false true "1"; mkCC x72 true false true "1"; mkCC x75 true false true "1"; mkCC x77 true false true "0"; mkCC x80 true false true "1"; mkCC x84 true false true "2"; mkCC x85 true false true "1"; mkCC x86 true false true "1"; mkCC x8e true false true "0"]).
Definition dev699 := ("0115_1000_0004", mkDevice "Z-Wave.Me" "ZME_06443" "Single Paddle Wall Controller" "0115" "1000" "0004" [mkCC x00 false false true "1"; mkCC x20 false false true "1"; mkCC x2b false false true "0"; mkCC x70 true false true "1"; mkCC x72 true false true "1"; mkCC x75 true false true "1"; mkCC x77 true false true "0"; mkCC x80 true false true "1"; mkCC x84 true false true "2"; mkCC x85 true false true "1"; mkCC x86 true false true "1"; mkCC x8e true false true "0"]).
Definition dev700 := ("0115_0024_0001", mkDevice "Z-Wave.Me" "ZME_FT" "Floor Thermostat" "0115" "0024" "0001" [mkCC x00 false false true "1"; mkCC x20 true false true "1"; mkCC x31 true false true "4"; mkCC x40 true false true "1"; mkCC x43 true false true "1"; mkCC x70 true false true "1"; mkCC x72 true false true "1"; mkCC x75 true false true "1"; mkCC x77 true false true "1"; mkCC x85 true false true "2"; mkCC x86 true false true "1"]).
Definition dev701 := ("0115_0100_0102", mkDevice "Z-Wave.Me" "ZME_KFOB-S" "Secure 4 Button Key Chain Controller" "0115" "0100" "0102" [mkCC x00 false false true "1"; mkCC x20 false false true "0"; mkCC x2d false false true "1"; mkCC x59 false false true "1"; mkCC x5a false false true "1"; mkCC x5b false false true "1"; mkCC x5e false false true "1"; mkCC x70 false false true "1"; mkCC x72 false false true "1"; mkCC x73 false false true "1"; mkCC x80 false false true "1"; mkCC x84 false false true "2"; mkCC x85 false false true "2"; mkCC x86 false false true "2"; mkCC x8f false false true "1"]).
Definition dev702 := ("0115_0100_0103", mkDevice "Z-Wave.Me" "ZME_KFOB-S" "Secure 4 Button Key Chain Controller" "0115" "0100" "0103" [mkCC x00 false false true "1"; mkCC x20 false false true "0"; mkCC x2d false false true "1"; mkCC x59 false false true "1"; mkCC x5a false false true "1"; mkCC x5b false false true "1"; mkCC x5e false false true "1"; mkCC x70 false false true "1"; mkCC x72 false false true "1"; mkCC x73 false false true "1"; mkCC x80 false false true "1"; mkCC x84 false false true "2"; mkCC x85 false false true "2"; mkCC x86 false false true "2"; mkCC x8f false false true "1"]).
Definition dev703 := ("0115_1000_0300", mkDevice "Z-Wave.Me" "ZME_RC2" "Z-Wave Remote Control+" "0115" "1000" "0300" [mkCC x00 false false true "1"; mkCC x20 false false true "1"; mkCC x26 true false true "1"; mkCC x2b true false true "1"; mkCC x70 true false true "1"; mkCC x72 true false true "1"; mkCC x80 true false true "1"; mkCC x84 true false true "2"; mkCC x85 true false true "1"; mkCC x86 true false true "1"; mkCC x8e true false true "2"]).
Definition dev704 := ("0115_0110_0001", mkDevice "Z-Wave.Me" "ZUNO1S1D1AI1DI" "ZUNO1S1D1AI1DI" "0115" "0110" "0001" [mkCC x00 false false true "1"; mkCC x20 false false true "1"; mkCC x25 false false true "1"; mkCC x59 false false true "1"; mkCC x5a false false true "1"; mkCC x5e false false true "1"; mkCC x60 false false true "2"; mkCC x70 false false true "1"; mkCC x72 false false true "1"; mkCC x73 false false true "1"; mkCC x7a false false true "1"; mkCC x85 false false true "2"; mkCC x86 false false true "2"; mkCC x8e false false true "3"]).
Definition dev705 := ("0115_0100_0400", mkDevice "Z-Wave.Me" "Z-Weather" "Z-Wave weather interface" "0115" "0100" "0400" [mkCC x00 false false true "1"; mkCC x20 false false true "1"; mkCC x30 false false true "0"; mkCC x31 true false true "6"; mkCC x32 true false true "3"; mkCC x59 true false true "1"; mkCC x5a true false true "1"; mkCC x5e true false true "1"; mkCC x70 true false true "1"; mkCC x72 true false true "1"; mkCC x73 true false true "1"; mkCC x80 true false true "1"; mkCC x84 true false true "2"; mkCC x85 true false true "1"; mkCC x86 true false true "1"; mkCC x89 true false true "1"; mkCC x8e true false true "0"; mkCC x8f true false true "1"; mkCC x9b true false true "0"]).
Definition devices : list (string * device) := [dev0; dev1; dev2; dev3; dev4; dev5; dev6; dev7; dev8; dev9; dev10; dev11; dev12; dev13; dev14; dev15; dev16; dev17; dev18; dev19; dev20; dev21; dev22; dev23; dev24; dev25; dev26; dev27; dev28; dev29; dev30; dev31; dev32; dev33; dev34; dev35; dev36; dev37; dev38; dev39; dev40; dev41; dev42; dev43; dev44; dev45; dev46; dev47; dev48; dev49; dev50; dev51; dev52; dev53; dev54; dev55; dev56; dev57; dev58; dev59; dev60; dev61; dev62; dev63; dev64; dev65; dev66; dev67; dev68; dev69; dev70; dev71; dev72; dev73; dev74; dev75; dev76; dev77; dev78; dev79; dev80; dev81; dev82; dev83; dev84; dev85; dev86; dev87; dev88; dev89; dev90; dev91; dev92; dev93; dev94; dev95; dev96; dev97; dev98; dev99; dev100; dev101; dev102; dev103; dev104; dev105; dev106; dev107; dev108; dev109; dev110; dev111; dev112; dev113; dev114; dev115; dev116; dev117; dev118; dev119; dev120; dev121; dev122; dev123; dev124; dev125; dev126; dev127; dev128; dev129; dev130; dev131; dev132; dev133; dev134; dev135; dev136; dev137; dev138; dev139; dev140; dev141; dev142; dev143; dev144; dev145; dev146; dev147; dev148; dev149; dev150; dev151; dev152; dev153; dev154; dev155; dev156; dev157; dev158; dev159; dev160; dev161; dev162; dev163; dev164; dev165; dev166; dev167; dev168; dev169; dev170; dev171; dev172; dev173; dev174; dev175; dev176; dev177; dev178; dev179; dev180; dev181; dev182; dev183; dev184; dev185; dev186; dev187; dev188; dev189; dev190; dev191; dev192; dev193; dev194; dev195; dev196; dev197; dev198; dev199; dev200; dev201; dev202; dev203; dev204; dev205; dev206; dev207; dev208; dev209; dev210; dev211; dev212; dev213; dev214; dev215; dev216; dev217; dev218; dev219; dev220; dev221; dev222; dev223; dev224; dev225; dev226; dev227; dev228; dev229; dev230; dev231; dev232; dev233; dev234; dev235; dev236; dev237; dev238; dev239; dev240; dev241; dev242; dev243; dev244; dev245; dev246; dev247; dev248; dev249; dev250; dev251; dev252; dev253; dev254; dev255; dev256; dev257; dev258; dev259; dev260; dev261; dev262; dev263; dev264; dev265; dev266; dev267; dev268; dev269; dev270; dev271; dev272; dev273; dev274; dev275; dev276; dev277; dev278; dev279; dev280; dev281; dev282; dev283; dev284; dev285; dev286; dev287; dev288; dev289; dev290; dev291; dev292; dev293; dev294; dev295; dev296; dev297; dev298; dev299; dev300; dev301; dev302; dev303; dev304; dev305; dev306; dev307; dev308; dev309; dev310; dev311; dev312; dev313; dev314; dev315; dev316; dev317; dev318; dev319; dev320; dev321; dev322; dev323; dev324; dev325; dev326; dev327; dev328; dev329; dev330; dev331; dev332; dev333; dev334; dev335; dev336; dev337; dev338; dev339; dev340; dev341; dev342; dev343; dev344; dev345; dev346; dev347; dev348; dev349; dev350; dev351; dev352; dev353; dev354; dev355; dev356; dev357; dev358; dev359; dev360; dev361; dev362; dev363; dev364; dev365; dev366; dev367; dev368; dev369; dev370; dev371; dev372; dev373; dev374; dev375; dev376; dev377; dev378; dev379; dev380; dev381; dev382; dev383; dev384; dev385; dev386; dev387; dev388; dev389; dev390; dev391; dev392; dev393; dev394; dev395; dev396; dev397; dev398; dev399; dev400; dev401; dev402; dev403; dev404; dev405; dev406; dev407; dev408; dev409; dev410; dev411; dev412; dev413; dev414; dev415; dev416; dev417; dev418; dev419; dev420; dev421; dev422; dev423; dev424; dev425; dev426; dev427; dev428; dev429; dev430; dev431; dev432; dev433; dev434; dev435; dev436; dev437; dev438; dev439; dev440; dev441; dev442; dev443; dev444; dev445; dev446; dev447; dev448; dev449; dev450; dev451; dev452; dev453; dev454; dev455; dev456; dev457; dev458; dev459; dev460; dev461; dev462; dev463; dev464; dev465; dev466; dev467; dev468; dev469; dev470; dev471; dev472; dev473; dev474; dev475; dev476; dev477; dev478; dev479; dev480; dev481; dev482; dev483; dev484; dev485; dev486; dev487; dev488; dev489; dev490; dev491; dev492; dev493; dev494; dev495; dev496; dev497; dev498; dev499; dev500; dev501; dev502; dev503; dev504; dev505; dev506; dev507; dev508; dev509; dev510; dev511; dev512; dev513; dev514; dev515; dev516; dev517; dev518; dev519; dev520; dev521; dev522; dev523; dev524; dev525; dev526; dev527; dev528; dev529; dev530; dev531; dev532; dev533; dev534; dev535; dev536; dev537; dev538; dev539; dev540; dev541; dev542; dev543; dev544; dev545; dev546; dev547; dev548; dev549; dev550; dev551; dev552; dev553; dev554; dev555; dev556; dev557; dev558; dev559; dev560; dev561; dev562; dev563; dev564; dev565; dev566; dev567; dev568; dev569; dev570; dev571; dev572; dev573; dev574; dev575; dev576; dev577; dev578; dev579; dev580; dev581; dev582; dev583; dev584; dev585; dev586; dev587; dev588; dev589; dev590; dev591; dev592; dev593; dev594; dev595; dev596; dev597; dev598; dev599; dev600; dev601; dev602; dev603; dev604; dev605; dev606; dev607; dev608; dev609; dev610; dev611; dev612; dev613; dev614; dev615; dev616; dev617; dev618; dev619; dev620; dev621; dev622; dev623; dev624; dev625; dev626; dev627; dev628; dev629; dev630; dev631; dev632; dev633; dev634; dev635; dev636; dev637; dev638; dev639; dev640; dev641; dev642; dev643; dev644; dev645; dev646; dev647; dev648; dev649; dev650; dev651; dev652; dev653; dev654; dev655; dev656; dev657; dev658; dev659; dev660; dev661; dev662; dev663; dev664; dev665; dev666; dev667; dev668; dev669; dev670; dev671; dev672; dev673; dev674; dev675; dev676; dev677; dev678; dev679; dev680; dev681; dev682; dev683; dev684; dev685; dev686; dev687; dev688; dev689; dev690; dev691; dev692; dev693; dev694; dev695; dev696; dev697; dev698; dev699; dev700; dev701; dev702; dev703; dev704; dev705].

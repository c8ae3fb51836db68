(** The shipped components of the testbed, transcribed from data_models/testbed/*_fixture.yaml (without gpio) and
    the firmwares of data_models/content/_external_fixtures.yaml.  Dates, numbers, truth values and references are
    given by their str(). *)
From Coq Require Import String ZArith List.
From Verif Require Import PyBase FixModel.
Import ListNotations.
Open Scope Z_scope.
Open Scope list_scope.

(** testbed/mcu_fixture.yaml:1-19. *)
Definition mcus : list wrapper := [
  mkWrap "mcu" [
    ("id", VInt 1001);
    ("name", VStr "nRF52");
    ("description", VStr "Panasonic PAN1780, ENW-89854A1KF, Bluetooth 5 Low Energy Module");
    ("platform", VStr "nRF52");
    ("core", VStr "nRF52840");
    ("prog_protocol", VStr "SWD");
    ("fw_name_default", VStr "nrf52_demo_rf")];
  mkWrap "mcu" [
    ("id", VInt 1002);
    ("name", VStr "MSP430FR");
    ("description", VStr "16MHz Ultra-Low-Pwr MCU with 128 KB FRAM");
    ("platform", VStr "MSP430");
    ("core", VStr "MSP430FR5962");
    ("prog_protocol", VStr "SBW");
    ("fw_name_default", VStr "msp430_deep_sleep")]
]%string.

(** testbed/target_fixture.yaml:1-163. *)
Definition targets : list wrapper := [
  mkWrap "target" [
    ("id", VInt 2);
    ("name", VStr "nRF52_FRAM_1392_377");
    ("version", VStr "v1.3");
    ("description", VStr "nRF52 as MCU + Radio, MSP430FR as SPI-FRAM or additional MCU");
    ("comment", VStr "slight scratches from manufacturing");
    ("created", VOther "2024-11-29");
    ("mcu1", VOther "{'name': 'nRF52'}");
    ("mcu2", VOther "{'name': 'MSP430FR'}")];
  mkWrap "target" [
    ("inherit_from", VStr "nRF52_FRAM_1392_377");
    ("id", VInt 8);
    ("name", VStr "nRF52_FRAM_1392_378")];
  mkWrap "target" [
    ("inherit_from", VStr "nRF52_FRAM_1392_377");
    ("id", VInt 9);
    ("name", VStr "nRF52_FRAM_1392_379")];
  mkWrap "target" [
    ("inherit_from", VStr "nRF52_FRAM_1392_377");
    ("id", VInt 1392380);
    ("name", VStr "nRF52_FRAM_1392_380");
    ("comment", VStr "msp fails to program");
    ("active", VOther "False")];
  mkWrap "target" [
    ("inherit_from", VStr "nRF52_FRAM_1392_377");
    ("id", VInt 1392381);
    ("name", VStr "nRF52_FRAM_1392_381");
    ("comment", VStr "nrf failed to program in testbed (but was fine before)")];
  mkWrap "target" [
    ("inherit_from", VStr "nRF52_FRAM_1392_377");
    ("id", VInt 1392382);
    ("name", VStr "nRF52_FRAM_1392_382");
    ("comment", VStr "msp fails to program");
    ("active", VOther "False")];
  mkWrap "target" [
    ("inherit_from", VStr "nRF52_FRAM_1392_377");
    ("id", VInt 1392383);
    ("name", VStr "nRF52_FRAM_1392_383");
    ("comment", VStr "nrf failed to program in testbed (but was fine before)")];
  mkWrap "target" [
    ("inherit_from", VStr "nRF52_FRAM_1392_377");
    ("id", VInt 4);
    ("name", VStr "nRF52_FRAM_1392_384")];
  mkWrap "target" [
    ("inherit_from", VStr "nRF52_FRAM_1392_377");
    ("id", VInt 5);
    ("name", VStr "nRF52_FRAM_1392_385")];
  mkWrap "target" [
    ("inherit_from", VStr "nRF52_FRAM_1392_377");
    ("id", VInt 6);
    ("name", VStr "nRF52_FRAM_1392_386")];
  mkWrap "target" [
    ("inherit_from", VStr "nRF52_FRAM_1392_377");
    ("id", VInt 7);
    ("name", VStr "nRF52_FRAM_1392_387")];
  mkWrap "target" [
    ("inherit_from", VStr "nRF52_FRAM_1392_377");
    ("id", VInt 1392388);
    ("name", VStr "nRF52_FRAM_1392_388");
    ("comment", VStr "msp fails to program, msp removed, in darmstadt");
    ("mcu2", VOther "None");
    ("active", VOther "False")];
  mkWrap "target" [
    ("inherit_from", VStr "nRF52_FRAM_1392_377");
    ("id", VInt 1392389);
    ("name", VStr "nRF52_FRAM_1392_389");
    ("comment", VStr "msp fails to program, msp removed, in darmstadt");
    ("mcu2", VOther "None");
    ("active", VOther "False")];
  mkWrap "target" [
    ("inherit_from", VStr "nRF52_FRAM_1392_377");
    ("id", VInt 10);
    ("name", VStr "nRF52_FRAM_1392_390")];
  mkWrap "target" [
    ("inherit_from", VStr "nRF52_FRAM_1392_377");
    ("id", VInt 1392391);
    ("name", VStr "nRF52_FRAM_1392_391");
    ("comment", VStr "nrf failed to program in testbed (but was fine before)")];
  mkWrap "target" [
    ("inherit_from", VStr "nRF52_FRAM_1392_377");
    ("id", VInt 1392392);
    ("name", VStr "nRF52_FRAM_1392_392");
    ("comment", VStr "msp fails to program");
    ("active", VOther "False")];
  mkWrap "target" [
    ("inherit_from", VStr "nRF52_FRAM_1392_377");
    ("id", VInt 1);
    ("name", VStr "nRF52_FRAM_1392_393")];
  mkWrap "target" [
    ("inherit_from", VStr "nRF52_FRAM_1392_377");
    ("id", VInt 1392394);
    ("name", VStr "nRF52_FRAM_1392_394");
    ("comment", VStr "msp fails to program");
    ("active", VOther "False")];
  mkWrap "target" [
    ("inherit_from", VStr "nRF52_FRAM_1392_377");
    ("id", VInt 3);
    ("name", VStr "nRF52_FRAM_1392_395");
    ("comment", VStr "initial test unit")];
  mkWrap "target" [
    ("inherit_from", VStr "nRF52_FRAM_1392_377");
    ("id", VInt 11);
    ("name", VStr "nRF52_FRAM_1392_396")];
  mkWrap "target" [
    ("inherit_from", VStr "nRF52_FRAM_1392_377");
    ("id", VInt 1392397);
    ("name", VStr "nRF52_FRAM_1392_397")];
  mkWrap "target" [
    ("inherit_from", VStr "nRF52_FRAM_1392_377");
    ("id", VInt 1392398);
    ("name", VStr "nRF52_FRAM_1392_398")];
  mkWrap "target" [
    ("inherit_from", VStr "nRF52_FRAM_1392_377");
    ("id", VInt 1392399);
    ("name", VStr "nRF52_FRAM_1392_399");
    ("comment", VStr "LabPrototype")];
  mkWrap "target" [
    ("inherit_from", VStr "nRF52_FRAM_1392_377");
    ("id", VInt 1392400);
    ("name", VStr "nRF52_FRAM_1392_400");
    ("comment", VStr "in darmstadt")];
  mkWrap "target" [
    ("id", VInt 1001);
    ("name", VStr "target_nRF52_01");
    ("version", VStr "v2.1r0");
    ("description", VStr "single target PCB, v2.1r0");
    ("comment", VStr "ONLY VIRTUAL - NOT REAL - for unittests");
    ("mcu1", VOther "{'name': 'nRF52'}");
    ("mcu2", VOther "None");
    ("created", VOther "2022-12-12 12:12:12")]
]%string.

(** testbed/cape_fixture.yaml:1-94. *)
Definition capes : list wrapper := [
  mkWrap "cape" [
    ("id", VInt 1270051);
    ("name", VStr "cape51");
    ("version", VStr "v2.4b");
    ("description", VStr "full version with Hrv & Emu, modded gpio,emu,hrv");
    ("created", VOther "2022-10-07");
    ("calibrated", VOther "2023-09-21")];
  mkWrap "cape" [
    ("inherit_from", VStr "cape51");
    ("id", VInt 1270052);
    ("name", VStr "cape52")];
  mkWrap "cape" [
    ("inherit_from", VStr "cape51");
    ("id", VInt 1270053);
    ("name", VStr "cape53");
    ("description", VStr "full version with Hrv & Emu, partially modded");
    ("comment", VStr "1st Lab Prototype, burned VReg -> currently defective");
    ("active", VOther "False")];
  mkWrap "cape" [
    ("inherit_from", VStr "cape51");
    ("id", VInt 1270054);
    ("name", VStr "cape54")];
  mkWrap "cape" [
    ("inherit_from", VStr "cape51");
    ("id", VInt 1270055);
    ("name", VStr "cape55");
    ("comment", VStr "Target-Port B, C-Meas failed on first Cal")];
  mkWrap "cape" [
    ("inherit_from", VStr "cape51");
    ("id", VInt 1270056);
    ("name", VStr "cape56")];
  mkWrap "cape" [
    ("inherit_from", VStr "cape51");
    ("id", VInt 1270057);
    ("name", VStr "cape57");
    ("comment", VStr "2nd Lab Prototype, has stackable headers")];
  mkWrap "cape" [
    ("inherit_from", VStr "cape51");
    ("id", VInt 1270058);
    ("name", VStr "cape58");
    ("comment", VStr "has shields on emu & hrv-circuits -> no effect on RF-Performance")];
  mkWrap "cape" [
    ("inherit_from", VStr "cape51");
    ("id", VInt 1270059);
    ("name", VStr "cape59");
    ("comment", VStr "only 220u/440uF on 5V")];
  mkWrap "cape" [
    ("inherit_from", VStr "cape51");
    ("id", VInt 1270060);
    ("name", VStr "cape60");
    ("comment", VStr "3rd Lab Prototype")];
  mkWrap "cape" [
    ("inherit_from", VStr "cape51");
    ("id", VInt 1270061);
    ("name", VStr "cape61");
    ("comment", VStr "only 220u/440uF on 5V")];
  mkWrap "cape" [
    ("inherit_from", VStr "cape51");
    ("id", VInt 1270062);
    ("name", VStr "cape62")];
  mkWrap "cape" [
    ("inherit_from", VStr "cape51");
    ("id", VInt 1270063);
    ("name", VStr "cape63");
    ("comment", VStr "only 220u/440uF on 5V")];
  mkWrap "cape" [
    ("inherit_from", VStr "cape51");
    ("id", VInt 1270064);
    ("name", VStr "cape64");
    ("comment", VStr "only 220u/440uF on 5V, had 6x74LVC2T45GT flippend (U11,12,23,24,27,28) - hot air repair")];
  mkWrap "cape" [
    ("inherit_from", VStr "cape51");
    ("id", VInt 1270065);
    ("name", VStr "cape65");
    ("comment", VStr "only 220u/440uF on 5V")]
]%string.

(** testbed/observer_fixture.yaml:1-223. *)
Definition observers : list wrapper := [
  mkWrap "observer" [
    ("id", VInt 0);
    ("name", VStr "sheep0");
    ("ip", VStr "10.0.0.20");
    ("mac", VStr "18:00:C0:FF:EE:77");
    ("room", VStr "at-home");
    ("eth_port", VStr "unimatrix_zero_one");
    ("description", VStr "lab / dev");
    ("longitude", VInt 0);
    ("latitude", VInt 0);
    ("cape", VOther "{'name': 'cape53'}");
    ("created", VOther "2022-12-12 12:12:12");
    ("active", VOther "False")];
  mkWrap "observer" [
    ("id", VInt 1);
    ("name", VStr "sheep01");
    ("ip", VStr "192.168.165.201");
    ("mac", VStr "18:62:E4:E4:41:8D");
    ("room", VStr "II69");
    ("eth_port", VStr "B14");
    ("description", VStr "lower mid on east-side");
    ("cape", VOther "{'name': 'cape51'}");
    ("target_a", VOther "{'name': 'nRF52_FRAM_1392_386'}");
    ("created", VOther "2023-09-22 12:12:12")];
  mkWrap "observer" [
    ("id", VInt 2);
    ("name", VStr "sheep02");
    ("ip", VStr "192.168.165.202");
    ("mac", VStr "18:62:E4:D0:DE:3F");
    ("room", VStr "II66");
    ("eth_port", VStr "A18");
    ("description", VStr "south-west corner");
    ("cape", VOther "{'name': 'cape52'}");
    ("target_a", VOther "{'name': 'nRF52_FRAM_1392_378'}");
    ("created", VOther "2023-09-22 12:12:12")];
  mkWrap "observer" [
    ("id", VInt 3);
    ("name", VStr "sheep03");
    ("ip", VStr "192.168.165.203");
    ("mac", VStr "18:62:E4:D0:9E:6A");
    ("room", VStr "II69");
    ("eth_port", VStr "B10");
    ("description", VStr "north-east-corner");
    ("cape", VOther "{'name': 'cape63'}");
    ("created", VOther "2023-09-22 12:12:12");
    ("active", VOther "False")];
  mkWrap "observer" [
    ("id", VInt 4);
    ("name", VStr "sheep04");
    ("ip", VStr "192.168.165.204");
    ("mac", VStr "18:62:E4:D0:61:4D");
    ("room", VStr "II72");
    ("eth_port", VStr "C6");
    ("description", VStr "mid on east-side");
    ("cape", VOther "{'name': 'cape54'}");
    ("target_a", VOther "{'name': 'nRF52_FRAM_1392_395'}");
    ("created", VOther "2023-09-22 12:12:12")];
  mkWrap "observer" [
    ("id", VInt 5);
    ("name", VStr "sheep05");
    ("ip", VStr "192.168.165.205");
    ("mac", VStr "18:62:E4:E3:6E:13");
    ("room", VStr "II75");
    ("eth_port", VStr "D10");
    ("description", VStr "south-west corner");
    ("cape", VOther "{'name': 'cape55'}");
    ("target_a", VOther "{'name': 'nRF52_FRAM_1392_393'}");
    ("target_b", VOther "{'name': 'target_nRF52_01'}");
    ("created", VOther "2023-09-22 12:12:12")];
  mkWrap "observer" [
    ("id", VInt 6);
    ("name", VStr "sheep06");
    ("ip", VStr "192.168.165.206");
    ("mac", VStr "18:62:E4:D0:AF:0B");
    ("room", VStr "II64");
    ("eth_port", VStr "L14");
    ("description", VStr "mid on north-side");
    ("cape", VOther "{'name': 'cape56'}");
    ("target_a", VOther "{'name': 'nRF52_FRAM_1392_396'}");
    ("created", VOther "2023-09-22 12:12:12")];
  mkWrap "observer" [
    ("id", VInt 7);
    ("name", VStr "sheep07");
    ("ip", VStr "192.168.165.207");
    ("mac", VStr "18:62:E4:E4:39:D7");
    ("room", VStr "II66");
    ("eth_port", VStr "A20");
    ("description", VStr "north-west-corner");
    ("cape", VOther "{'name': 'cape57'}");
    ("target_a", VOther "{'name': 'nRF52_FRAM_1392_387'}");
    ("created", VOther "2023-09-22 12:12:12")];
  mkWrap "observer" [
    ("id", VInt 8);
    ("name", VStr "sheep08");
    ("ip", VStr "192.168.165.208");
    ("mac", VStr "18:62:E4:D0:E5:FB");
    ("room", VStr "II69");
    ("eth_port", VStr "TBD");
    ("description", VStr "north-east-corner");
    ("cape", VOther "{'name': 'cape58'}");
    ("created", VOther "2023-09-22 12:12:12");
    ("active", VOther "False")];
  mkWrap "observer" [
    ("id", VInt 9);
    ("name", VStr "sheep09");
    ("ip", VStr "192.168.165.209");
    ("mac", VStr "18:62:E4:D0:D4:A9");
    ("room", VStr "II71");
    ("eth_port", VStr "C4");
    ("description", VStr "south-east-corner");
    ("cape", VOther "{'name': 'cape65'}");
    ("target_a", VOther "{'name': 'nRF52_FRAM_1392_385'}");
    ("created", VOther "2023-09-22 12:12:12")];
  mkWrap "observer" [
    ("id", VInt 10);
    ("name", VStr "sheep10");
    ("ip", VStr "192.168.165.210");
    ("mac", VStr "18:62:E4:E4:24:C5");
    ("room", VStr "II74");
    ("eth_port", VStr "C20");
    ("description", VStr "upper mid on east-side");
    ("cape", VOther "{'name': 'cape59'}");
    ("target_a", VOther "{'name': 'nRF52_FRAM_1392_377'}");
    ("created", VOther "2023-09-22 12:12:12")];
  mkWrap "observer" [
    ("id", VInt 11);
    ("name", VStr "sheep11");
    ("ip", VStr "192.168.165.211");
    ("mac", VStr "18:62:E4:E4:0E:5D");
    ("room", VStr "tbd");
    ("eth_port", VStr "tbd");
    ("description", VStr "tbd");
    ("cape", VOther "{'name': 'cape61'}");
    ("created", VOther "2023-09-22 12:12:12");
    ("active", VOther "False")];
  mkWrap "observer" [
    ("id", VInt 12);
    ("name", VStr "sheep12");
    ("ip", VStr "192.168.165.212");
    ("mac", VStr "18:62:E4:D0:AA:F7");
    ("room", VStr "II71");
    ("eth_port", VStr "B24");
    ("description", VStr "north-east-corner");
    ("cape", VOther "{'name': 'cape62'}");
    ("target_a", VOther "{'name': 'nRF52_FRAM_1392_384'}");
    ("created", VOther "2023-09-22 12:12:12")];
  mkWrap "observer" [
    ("id", VInt 13);
    ("name", VStr "sheep13");
    ("ip", VStr "192.168.165.213");
    ("mac", VStr "18:62:E4:D0:D7:70");
    ("room", VStr "II64C");
    ("eth_port", VStr "A4");
    ("description", VStr "north-west-corner");
    ("comment", VOther "None");
    ("cape", VOther "{'name': 'cape60'}");
    ("target_a", VOther "{'name': 'nRF52_FRAM_1392_379'}");
    ("created", VOther "2023-09-22 12:12:12")];
  mkWrap "observer" [
    ("id", VInt 14);
    ("name", VStr "sheep14");
    ("ip", VStr "192.168.165.214");
    ("mac", VStr "18:62:E4:E3:89:43");
    ("room", VStr "II64B");
    ("eth_port", VStr "L24");
    ("description", VStr "north-east-corner in cupboard, elevated");
    ("comment", VOther "None");
    ("cape", VOther "{'name': 'cape64'}");
    ("target_a", VOther "{'name': 'nRF52_FRAM_1392_390'}");
    ("created", VOther "2023-09-22 12:12:12")]
]%string.

(** testbed/testbed_fixture.yaml:1-25. *)
Definition testbeds : list wrapper := [
  mkWrap "testbed" [
    ("id", VInt 1337);
    ("name", VStr "shepherd_tud_nes");
    ("description", VStr "Shepherd Testbed of the NES Lab Group at TU Dresden, Germany");
    ("shared_storage", VOther "True");
    ("data_on_server", VStr "/var/shepherd/");
    ("data_on_observer", VStr "/var/shepherd/");
    ("observers", VOther "[{'name': 'sheep01'}, {'name': 'sheep02'}, {'name': 'sheep04'}, {'name': 'sheep05'}, {'name': 'sheep06'}, {'name': 'sheep07'}, {'name': 'sheep09'}, {'name': 'sheep10'}, {'name': 'sheep12'}, {'name': 'sheep13'}, {'name': 'sheep14'}]")]
]%string.

(** content/_external_fixtures.yaml:185-409: names of the firmwares and the dictionaries of their controllers. *)
Definition firmwares : list (string * dict) := [
  ("msp430_deep_sleep", [("id", VInt 1002); ("name", VStr "MSP430FR"); ("description", VStr "16MHz Ultra-Low-Pwr MCU with 128 KB FRAM"); ("comment", VOther "None"); ("platform", VStr "MSP430"); ("core", VStr "MSP430FR5962"); ("prog_protocol", VStr "SBW"); ("prog_voltage", VOther "3.0"); ("prog_datarate", VInt 500000); ("fw_name_default", VStr "msp430_deep_sleep")]);
  ("msp430_spi_fram", [("id", VInt 1002); ("name", VStr "MSP430FR"); ("description", VStr "16MHz Ultra-Low-Pwr MCU with 128 KB FRAM"); ("comment", VOther "None"); ("platform", VStr "MSP430"); ("core", VStr "MSP430FR5962"); ("prog_protocol", VStr "SBW"); ("prog_voltage", VOther "3.0"); ("prog_datarate", VInt 500000); ("fw_name_default", VStr "msp430_deep_sleep")]);
  ("msp430_testable", [("id", VInt 1002); ("name", VStr "MSP430FR"); ("description", VStr "16MHz Ultra-Low-Pwr MCU with 128 KB FRAM"); ("comment", VOther "None"); ("platform", VStr "MSP430"); ("core", VStr "MSP430FR5962"); ("prog_protocol", VStr "SBW"); ("prog_voltage", VOther "3.0"); ("prog_datarate", VInt 500000); ("fw_name_default", VStr "msp430_deep_sleep")]);
  ("nrf52_deep_sleep", [("id", VInt 1001); ("name", VStr "nRF52"); ("description", VStr "Panasonic PAN1780, ENW-89854A1KF, Bluetooth 5 Low Energy Module"); ("comment", VOther "None"); ("platform", VStr "nRF52"); ("core", VStr "nRF52840"); ("prog_protocol", VStr "SWD"); ("prog_voltage", VOther "3.0"); ("prog_datarate", VInt 500000); ("fw_name_default", VStr "nrf52_demo_rf")]);
  ("nrf52_demo_rf", [("id", VInt 1001); ("name", VStr "nRF52"); ("description", VStr "Panasonic PAN1780, ENW-89854A1KF, Bluetooth 5 Low Energy Module"); ("comment", VOther "None"); ("platform", VStr "nRF52"); ("core", VStr "nRF52840"); ("prog_protocol", VStr "SWD"); ("prog_voltage", VOther "3.0"); ("prog_datarate", VInt 500000); ("fw_name_default", VStr "nrf52_demo_rf")]);
  ("nrf52_rf_survey", [("id", VInt 1001); ("name", VStr "nRF52"); ("description", VStr "Panasonic PAN1780, ENW-89854A1KF, Bluetooth 5 Low Energy Module"); ("comment", VOther "None"); ("platform", VStr "nRF52"); ("core", VStr "nRF52840"); ("prog_protocol", VStr "SWD"); ("prog_voltage", VOther "3.0"); ("prog_datarate", VInt 500000); ("fw_name_default", VStr "nrf52_demo_rf")]);
  ("nrf52_rf_test", [("id", VInt 1001); ("name", VStr "nRF52"); ("description", VStr "Panasonic PAN1780, ENW-89854A1KF, Bluetooth 5 Low Energy Module"); ("comment", VOther "None"); ("platform", VStr "nRF52"); ("core", VStr "nRF52840"); ("prog_protocol", VStr "SWD"); ("prog_voltage", VOther "3.0"); ("prog_datarate", VInt 500000); ("fw_name_default", VStr "nrf52_demo_rf")]);
  ("nrf52_testable", [("id", VInt 1001); ("name", VStr "nRF52"); ("description", VStr "Panasonic PAN1780, ENW-89854A1KF, Bluetooth 5 Low Energy Module"); ("comment", VOther "None"); ("platform", VStr "nRF52"); ("core", VStr "nRF52840"); ("prog_protocol", VStr "SWD"); ("prog_voltage", VOther "3.0"); ("prog_datarate", VInt 500000); ("fw_name_default", VStr "nrf52_demo_rf")])
]%string.

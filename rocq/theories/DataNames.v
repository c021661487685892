(** Generated by tools/gen_database.py: the constants and the cases of the
    String methods of /repo/serialapi/types.go:5-237 and
    /repo/commands/constants.go:107-258, in source order. *)
From Verif Require Import ModelBase.
Local Open Scope string_scope.
Definition function_constants : list (string * byte) :=
  [("None", x00);
   ("DiscoveryNodes", x02);
   ("SerialApiApplNodeInformation", x03);
   ("ApplicationCommandHandler", x04);
   ("GetControllerCapabilities", x05);
   ("SerialApiSetTimeouts", x06);
   ("SerialGetCapabilities", x07);
   ("SerialApiSoftReset", x08);
   ("SetRFReceiveMode", x10);
   ("SetSleepMode", x11);
   ("SendNodeInformation", x12);
   ("SendData", x13);
   ("SendDataMulti", x14);
   ("GetVersion", x15);
   ("SendDataAbort", x16);
   ("RFPowerLevelSet", x17);
   ("SendDataMeta", x18);
   ("MemoryGetId", x20);
   ("MemoryGetByte", x21);
   ("MemoryPutByte", x22);
   ("MemoryGetBuffer", x23);
   ("MemoryPutBuffer", x24);
   ("ReadMemory", x25);
   ("ClockSet", x30);
   ("ClockGet", x31);
   ("ClockCompare", x32);
   ("RtcTimerCreate", x33);
   ("RtcTimerRead", x34);
   ("RtcTimerDelete", x35);
   ("RtcTimerCall", x36);
   ("GetNodeProtocolInfo", x41);
   ("SetDefault", x42);
   ("ReplicationCommandComplete", x44);
   ("ReplicationSendData", x45);
   ("AssignReturnRoute", x46);
   ("DeleteReturnRoute", x47);
   ("RequestNodeNeighborUpdate", x48);
   ("ApplicationUpdate", x49);
   ("AddNodeToNetwork", x4a);
   ("RemoveNodeFromNetwork", x4b);
   ("CreateNewPrimary", x4c);
   ("ControllerChange", x4d);
   ("SetLearnMode", x50);
   ("AssignSucReturnRoute", x51);
   ("EnableSuc", x52);
   ("RequestNetworkUpdate", x53);
   ("SetSucNodeId", x54);
   ("DeleteSucReturnRoute", x55);
   ("GetSucNodeId", x56);
   ("SendSucId", x57);
   ("RediscoveryNeeded", x59);
   ("RequestNodeInfo", x60);
   ("RemoveFailedNodeId", x61);
   ("IsFailedNode", x62);
   ("ReplaceFailedNode", x63);
   ("TimerStart", x70);
   ("TimerRestart", x71);
   ("TimerCancel", x72);
   ("TimerCall", x73);
   ("GetRoutingTableLine", x80);
   ("GetTXCounter", x81);
   ("ResetTXCounter", x82);
   ("StoreNodeInfo", x83);
   ("StoreHomeId", x84);
   ("LockRouteResponse", x90);
   ("SendDataRouteDemo", x91);
   ("SerialApiTest", x95);
   ("SerialApiSlaveNodeInfo", xa0);
   ("ApplicationSlaveCommandHandler", xa1);
   ("SendSlaveNodeInfo", xa2);
   ("SendSlaveData", xa3);
   ("SetSlaveLearnMode", xa4);
   ("GetVirtualNodes", xa5);
   ("IsVirtualNode", xa6);
   ("SetPromiscuousMode", xd0)].
Definition function_cases : list (string * byte) :=
  [("None", x00);
   ("DiscoveryNodes", x02);
   ("SerialApiApplNodeInformation", x03);
   ("ApplicationCommandHandler", x04);
   ("GetControllerCapabilities", x05);
   ("SerialApiSetTimeouts", x06);
   ("SerialGetCapabilities", x07);
   ("SerialApiSoftReset", x08);
   ("SetRFReceiveMode", x10);
   ("SetSleepMode", x11);
   ("SendNodeInformation", x12);
   ("SendData", x13);
   ("SendDataMulti", x14);
   ("GetVersion", x15);
   ("SendDataAbort", x16);
   ("RFPowerLevelSet", x17);
   ("SendDataMeta", x18);
   ("MemoryGetId", x20);
   ("MemoryGetByte", x21);
   ("MemoryPutByte", x22);
   ("MemoryGetBuffer", x23);
   ("MemoryPutBuffer", x24);
   ("ReadMemory", x25);
   ("ClockSet", x30);
   ("ClockGet", x31);
   ("ClockCompare", x32);
   ("RtcTimerCreate", x33);
   ("RtcTimerRead", x34);
   ("RtcTimerDelete", x35);
   ("RtcTimerCall", x36);
   ("GetNodeProtocolInfo", x41);
   ("SetDefault", x42);
   ("ReplicationCommandComplete", x44);
   ("ReplicationSendData", x45);
   ("AssignReturnRoute", x46);
   ("DeleteReturnRoute", x47);
   ("RequestNodeNeighborUpdate", x48);
   ("ApplicationUpdate", x49);
   ("AddNodeToNetwork", x4a);
   ("RemoveNodeFromNetwork", x4b);
   ("CreateNewPrimary", x4c);
   ("ControllerChange", x4d);
   ("SetLearnMode", x50);
   ("AssignSucReturnRoute", x51);
   ("EnableSuc", x52);
   ("RequestNetworkUpdate", x53);
   ("SetSucNodeId", x54);
   ("DeleteSucReturnRoute", x55);
   ("GetSucNodeId", x56);
   ("SendSucId", x57);
   ("RediscoveryNeeded", x59);
   ("RequestNodeInfo", x60);
   ("RemoveFailedNodeId", x61);
   ("IsFailedNode", x62);
   ("ReplaceFailedNode", x63);
   ("TimerStart", x70);
   ("TimerRestart", x71);
   ("TimerCancel", x72);
   ("TimerCall", x73);
   ("GetRoutingTableLine", x80);
   ("GetTXCounter", x81);
   ("ResetTXCounter", x82);
   ("StoreNodeInfo", x83);
   ("StoreHomeId", x84);
   ("LockRouteResponse", x90);
   ("SendDataRouteDemo", x91);
   ("SerialApiTest", x95);
   ("SerialApiSlaveNodeInfo", xa0);
   ("ApplicationSlaveCommandHandler", xa1);
   ("SendSlaveNodeInfo", xa2);
   ("SendSlaveData", xa3);
   ("SetSlaveLearnMode", xa4);
   ("GetVirtualNodes", xa5);
   ("IsVirtualNode", xa6);
   ("SetPromiscuousMode", xd0)].
Definition command_constants : list (string * byte) :=
  [("Basic", x20);
   ("ControllerReplication", x21);
   ("ApplicationStatus", x22);
   ("SwitchBinary", x25);
   ("SwitchMultilevel", x26);
   ("SwitchAll", x27);
   ("SwitchToggleBinary", x28);
   ("SwitchToggleMultilevel", x29);
   ("SceneActivation", x2b);
   ("SceneActuatorConf", x2c);
   ("SensorBinary", x30);
   ("SensorMultiLevel", x31);
   ("Meter", x32);
   ("MeterPulse", x35);
   ("ThermostatMode", x40);
   ("ThermostatOperatingState", x42);
   ("ThermostatSetpoint", x43);
   ("ThermostatFanMode", x44);
   ("ThermostatFanState", x45);
   ("ClimateControlSchedule", x46);
   ("BasicWindowCovering", x50);
   ("CRC16Encap", x56);
   ("AssociationGRPInfo", x59);
   ("DeviceResetLocally", x5a);
   ("CentralScenev2", x5b);
   ("ZwavePlusInfov2", x5e);
   ("MultiInstance", x60);
   ("Configuration", x70);
   ("Alarm", x71);
   ("ManufacturerSpecific", x72);
   ("PowerLevel", x73);
   ("Protection", x75);
   ("Lock", x76);
   ("NodeNaming", x77);
   ("FirmwareUpdateMDv3", x7a);
   ("Battery", x80);
   ("Clock", x81);
   ("Hail", x82);
   ("WakeUp", x84);
   ("Association", x85);
   ("Version", x86);
   ("Indicator", x87);
   ("Proprietary", x88);
   ("Language", x89);
   ("MultiInstanceAssociation", x8e);
   ("MultiCmd", x8f);
   ("EnergyProduction", x90);
   ("ManufacturerProprietary", x91);
   ("Security", x98);
   ("AssociationCommandConfiguration", x9b);
   ("Mark", x0e)].
Definition command_cases : list (string * byte) :=
  [("Basic", x20);
   ("ControllerReplication", x21);
   ("ApplicationStatus", x22);
   ("SwitchBinary", x25);
   ("SwitchMultilevel", x26);
   ("SwitchAll", x27);
   ("SwitchToggleBinary", x28);
   ("SwitchToggleMultilevel", x29);
   ("SceneActivation", x2b);
   ("SceneActuatorConf", x2c);
   ("SensorBinary", x30);
   ("SensorMultiLevel", x31);
   ("Meter", x32);
   ("MeterPulse", x35);
   ("ThermostatMode", x40);
   ("ThermostatOperatingState", x42);
   ("ThermostatSetpoint", x43);
   ("ThermostatFanMode", x44);
   ("ThermostatFanState", x45);
   ("ClimateControlSchedule", x46);
   ("BasicWindowCovering", x50);
   ("MultiInstance", x60);
   ("Configuration", x70);
   ("Alarm", x71);
   ("ManufacturerSpecific", x72);
   ("PowerLevel", x73);
   ("Protection", x75);
   ("Lock", x76);
   ("NodeNaming", x77);
   ("Battery", x80);
   ("Clock", x81);
   ("Hail", x82);
   ("WakeUp", x84);
   ("Association", x85);
   ("Version", x86);
   ("Indicator", x87);
   ("Proprietary", x88);
   ("Language", x89);
   ("MultiInstanceAssociation", x8e);
   ("MultiCmd", x8f);
   ("EnergyProduction", x90);
   ("ManufacturerProprietary", x91);
   ("AssociationCommandConfiguration", x9b);
   ("Mark", xef)].

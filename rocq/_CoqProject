-Q theories Verif
theories/Base.v
theories/Bits.v
theories/Bcd.v
theories/GoTime.v
theories/Decimal.v
theories/Env.v
theories/EntTerm.v
theories/EntPlat.v
theories/Registry.v
theories/Message.v
theories/Codec.v
theories/Timer.v
theories/Session.v
theories/Multipart.v
theories/Server.v
theories/App.v
theories/Compares.v
theories/Cost.v
theories/Crash.v
theories/Custom.v
theories/Demo.v
theories/DemoAlone.v
theories/DemoApp.v
theories/DemoCost.v
theories/DemoCrash.v
theories/DemoCustom.v
theories/DemoFine.v
theories/DemoGb.v
theories/DemoHost.v
theories/DemoLife.v
theories/DemoLink.v
theories/DemoLocks.v
theories/DemoMemory.v
theories/DemoParts.v
theories/DemoPool.v
theories/DemoRace.v
theories/DemoRefuse.v
theories/DemoRsa.v
theories/DemoServer.v
theories/DemoSim.v
theories/DemoSlip.v
theories/DemoWorld.v
theories/DemoWrong.v
theories/Descr.v
theories/Faults.v
theories/Fine.v
theories/Flags.v
theories/Gb.v
theories/Host.v
theories/LibBase.v
theories/LibBcd.v
theories/LibBits.v
theories/LibCalendar.v
theories/LibDec.v
theories/LibEntity.v
theories/LibHeap.v
theories/LibMulti.v
theories/LibSafe.v
theories/LibTime.v
theories/Life.v
theories/Link.v
theories/Locks.v
theories/Memory.v
theories/Overlap.v
theories/ParamHeap.v
theories/Pool.v
theories/ProofAgain.v
theories/ProofAlone.v
theories/ProofAlone2.v
theories/ProofAlone3.v
theories/ProofAlone4.v
theories/ProofAlone5.v
theories/ProofAlone6.v
theories/ProofApp.v
theories/ProofApp2.v
theories/ProofApp3.v
theories/ProofApp4.v
theories/ProofApp5.v
theories/ProofBits.v
theories/ProofBits2.v
theories/ProofBody.v
theories/ProofBody2.v
theories/ProofBody3.v
theories/ProofBody4.v
theories/ProofCompares.v
theories/ProofCompares2.v
theories/ProofCompares3.v
theories/ProofCompares4.v
theories/ProofCost.v
theories/ProofCrash.v
theories/ProofCrash2.v
theories/ProofCrash3.v
theories/ProofCrash4.v
theories/ProofCustom.v
theories/ProofCustom2.v
theories/ProofDescr.v
theories/ProofDescr2.v
theories/ProofFacing.v
theories/ProofFaults.v
theories/ProofFaults2.v
theories/ProofFermat.v
theories/ProofFine.v
theories/ProofFine10.v
theories/ProofFine11.v
theories/ProofFine12.v
theories/ProofFine13.v
theories/ProofFine2.v
theories/ProofFine3.v
theories/ProofFine4.v
theories/ProofFine5.v
theories/ProofFine6.v
theories/ProofFine7.v
theories/ProofFine8.v
theories/ProofFine9.v
theories/ProofFlags.v
theories/ProofFrame.v
theories/ProofGb.v
theories/ProofGb2.v
theories/ProofHeader.v
theories/ProofHost.v
theories/ProofHost2.v
theories/ProofHost3.v
theories/ProofHost4.v
theories/ProofHost5.v
theories/ProofHost6.v
theories/ProofHost7.v
theories/ProofLength.v
theories/ProofLife.v
theories/ProofLife2.v
theories/ProofLife3.v
theories/ProofLink.v
theories/ProofLink2.v
theories/ProofLocks.v
theories/ProofLocks2.v
theories/ProofLocks3.v
theories/ProofLocks4.v
theories/ProofLocks5.v
theories/ProofLocks6.v
theories/ProofLocks7.v
theories/ProofMemory.v
theories/ProofMemory2.v
theories/ProofMemory3.v
theories/ProofMemory4.v
theories/ProofMsg.v
theories/ProofMsg2.v
theories/ProofMulti.v
theories/ProofMulti2.v
theories/ProofMulti3.v
theories/ProofOverlap.v
theories/ProofOverlap2.v
theories/ProofOverlap3.v
theories/ProofParam.v
theories/ProofParts.v
theories/ProofPool.v
theories/ProofPool2.v
theories/ProofPool3.v
theories/ProofPool4.v
theories/ProofPool5.v
theories/ProofPool6.v
theories/ProofPubKey.v
theories/ProofPubKey2.v
theories/ProofRace.v
theories/ProofRace2.v
theories/ProofRace3.v
theories/ProofRace4.v
theories/ProofRead.v
theories/ProofRead2.v
theories/ProofRead3.v
theories/ProofRead4.v
theories/ProofRead5.v
theories/ProofRefuse.v
theories/ProofRepeat.v
theories/ProofReserve.v
theories/ProofRoom.v
theories/ProofRound.v
theories/ProofRound2.v
theories/ProofRound3.v
theories/ProofRsa.v
theories/ProofRsa2.v
theories/ProofSafe.v
theories/ProofSealed.v
theories/ProofServer.v
theories/ProofServer2.v
theories/ProofServer3.v
theories/ProofServer4.v
theories/ProofServer5.v
theories/ProofServer6.v
theories/ProofServer7.v
theories/ProofSession.v
theories/ProofSession2.v
theories/ProofSession3.v
theories/ProofSession4.v
theories/ProofSha.v
theories/ProofSha2.v
theories/ProofSha3.v
theories/ProofShort.v
theories/ProofSim.v
theories/ProofSim2.v
theories/ProofSim3.v
theories/ProofSim4.v
theories/ProofSim5.v
theories/ProofSlip.v
theories/ProofSlip2.v
theories/ProofSlip3.v
theories/ProofSlip4.v
theories/ProofSlip5.v
theories/ProofStock.v
theories/ProofStream.v
theories/ProofStream2.v
theories/ProofTests.v
theories/ProofTime.v
theories/ProofTimer.v
theories/ProofTimer2.v
theories/ProofTimer3.v
theories/ProofTimer4.v
theories/ProofWalk.v
theories/ProofWire.v
theories/ProofWire2.v
theories/ProofWire3.v
theories/ProofWire4.v
theories/ProofWire5.v
theories/ProofWorld.v
theories/ProofWorld10.v
theories/ProofWorld11.v
theories/ProofWorld12.v
theories/ProofWorld2.v
theories/ProofWorld3.v
theories/ProofWorld4.v
theories/ProofWorld5.v
theories/ProofWorld6.v
theories/ProofWorld7.v
theories/ProofWorld8.v
theories/ProofWorld9.v
theories/ProofWrong.v
theories/ProofZones.v
theories/ProofZones2.v
theories/Properties_Alone.v
theories/Properties_Alone2.v
theories/Properties_App.v
theories/Properties_Bcd.v
theories/Properties_Bits.v
theories/Properties_Body.v
theories/Properties_Compares.v
theories/Properties_Cost.v
theories/Properties_Crash.v
theories/Properties_Custom.v
theories/Properties_Descr.v
theories/Properties_Facing.v
theories/Properties_Faults.v
theories/Properties_Fine.v
theories/Properties_Flags.v
theories/Properties_Frame.v
theories/Properties_Gb.v
theories/Properties_Host.v
theories/Properties_Length.v
theories/Properties_Life.v
theories/Properties_Link.v
theories/Properties_Locks.v
theories/Properties_Memory.v
theories/Properties_Message.v
theories/Properties_Multi.v
theories/Properties_Overlap.v
theories/Properties_Parts.v
theories/Properties_Pool.v
theories/Properties_PubKey.v
theories/Properties_Race.v
theories/Properties_Read.v
theories/Properties_Refuse.v
theories/Properties_Reserve.v
theories/Properties_Room.v
theories/Properties_Rsa.v
theories/Properties_Sealed.v
theories/Properties_Server.v
theories/Properties_Session.v
theories/Properties_Sha.v
theories/Properties_Short.v
theories/Properties_Sim.v
theories/Properties_Slip.v
theories/Properties_Stock.v
theories/Properties_Stream.v
theories/Properties_Tests.v
theories/Properties_Timer.v
theories/Properties_Walk.v
theories/Properties_Wire.v
theories/Properties_World.v
theories/Properties_Wrong.v
theories/Properties_Zones.v
theories/PubKey.v
theories/Race.v
theories/Reserve.v
theories/Rsa.v
theories/Sha1.v
theories/SpecAgain.v
theories/SpecAlone.v
theories/SpecAlone2.v
theories/SpecApp.v
theories/SpecArrive.v
theories/SpecBody.v
theories/SpecCompares.v
theories/SpecCost.v
theories/SpecCrash.v
theories/SpecCustom.v
theories/SpecDescr.v
theories/SpecEntity.v
theories/SpecFacing.v
theories/SpecFaults.v
theories/SpecFine.v
theories/SpecFlags.v
theories/SpecFrame.v
theories/SpecGb.v
theories/SpecGeo.v
theories/SpecHost.v
theories/SpecLength.v
theories/SpecLife.v
theories/SpecLink.v
theories/SpecLocks.v
theories/SpecMemory.v
theories/SpecMsg.v
theories/SpecMulti.v
theories/SpecOverlap.v
theories/SpecParts.v
theories/SpecPool.v
theories/SpecPubKey.v
theories/SpecRace.v
theories/SpecRange.v
theories/SpecRead.v
theories/SpecRefuse.v
theories/SpecReserve.v
theories/SpecRoom.v
theories/SpecRsa.v
theories/SpecSealed.v
theories/SpecServer.v
theories/SpecSession.v
theories/SpecSha.v
theories/SpecShort.v
theories/SpecSim.v
theories/SpecSlip.v
theories/SpecStock.v
theories/SpecStream.v
theories/SpecTests.v
theories/SpecTimer.v
theories/SpecWalk.v
theories/SpecWire.v
theories/SpecWorld.v
theories/SpecWrong.v
theories/SpecZones.v
theories/Tests.v
theories/Walk.v
theories/World.v
theories/Zones.v

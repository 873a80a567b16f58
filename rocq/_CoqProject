-Q theories Verif
theories/Base.v
theories/StateModel.v
theories/StateSpec.v
theories/StateHarness.v
theories/StateProofs.v
theories/StateProofs2.v
theories/Props_State.v
theories/SerModel.v
theories/WireSpec.v
theories/SerHarness.v
theories/SerProofs.v
theories/SerProofs2.v
theories/SerProofs3.v
theories/SerProofs4.v
theories/SerProofs5.v
theories/Props_Ser.v
theories/TopicModel.v
theories/TopicSpec.v
theories/TopicProofs.v
theories/Props_Topic.v
theories/CoreModel.v
theories/CoreSpec.v
theories/CoreHarness.v
theories/CoreProofs.v
theories/CoreProofs2.v
theories/CoreProofs3.v
theories/CoreProofs4.v
theories/CoreProofs5.v
theories/CoreProofs6.v
theories/CoreProofs7.v
theories/CoreProofs8.v
theories/CoreProofs9.v
theories/CoreProofs10.v
theories/CoreProofs11.v
theories/CoreProofs12.v
theories/CoreProofs13.v
theories/CoreProofs14.v
theories/CoreProofs15.v
theories/CoreProofs16.v
theories/CoreProofs17.v
theories/CoreProofs18.v
theories/CoreCases.v
theories/CoreFinal.v
theories/Props_Core.v
theories/CoreProofs19.v
theories/CoreProofs20.v
theories/CoreProofs21.v
theories/CoreProofs22.v
theories/CoreFinal2.v
theories/CoreProofs23.v
theories/CoreProofs24.v
theories/Props_Loop.v
theories/CoreFinal3.v
theories/Props_Findings.v
theories/CoreTime.v
theories/CoreProofs25.v
theories/CoreFinal4.v
theories/CoreFinal5.v
theories/Props_Time.v
theories/ConcModel.v
theories/ConcHarness.v
theories/ConcProofs.v
theories/ConcProofs2.v
theories/ConcProofs3.v
theories/ConcProofs4.v
theories/ConcProofs5.v
theories/ConcProofs6.v
theories/ConcProofs7.v
theories/ConcProofs8.v
theories/ConcProofs9.v
theories/ConcProofs10.v
theories/ConcCases.v
theories/Props_Conc.v
theories/Machine.v
theories/MachProofs.v
theories/MachProofs2.v
theories/MachProofs3.v
theories/MachProofs4.v
theories/MachProofs5.v
theories/MachSpec.v
theories/MachFacts.v
theories/MachFacts2.v
theories/MachFinal.v
theories/MachCases.v
theories/Props_Mach.v
theories/NetSpec.v
theories/NetProofs.v
theories/NetProofs2.v
theories/NetProofs3.v
theories/NetProofs4.v
theories/NetFinal.v
theories/NetCases.v
theories/Props_Net.v
theories/MachSpec2.v
theories/MachFacts3.v
theories/MachFinal2.v
theories/SessCases.v
theories/Props_Sess.v
theories/InSpec.v
theories/InProofs.v
theories/InProofs2.v
theories/InProofs3.v
theories/InProofs4.v
theories/InFinal.v
theories/InStuck.v
theories/InCases.v
theories/Props_In.v
theories/InitModel.v
theories/InitProofs.v
theories/Props_Init.v
theories/OutSpec.v
theories/OutProofs.v
theories/OutProofs2.v
theories/OutProofs3.v
theories/OutProofs4.v
theories/OutFinal.v
theories/OutSeq.v
theories/OutHist.v
theories/OutCases.v
theories/Props_Out.v
theories/DrainSpec.v
theories/DrainProofs.v
theories/Props_Drain.v
theories/LifeSpec.v
theories/LifeProofs.v
theories/Props_Life.v
theories/IdProofs.v
theories/Props_Ids.v
theories/NestModel.v
theories/NestProofs.v
theories/Props_Nest.v
theories/NestProofs2.v
theories/Props_Nest2.v
theories/NullModel.v
theories/Props_Null.v
theories/CalmSpec.v
theories/CalmProofs.v
theories/Props_Calm.v
theories/Props_Rest.v
theories/QosModel.v
theories/QosProofs.v
theories/QosSub.v
theories/QosSpec.v
theories/QosSubProofs.v
theories/Props_Qos.v
theories/WireProofs.v
theories/Props_Wire.v
theories/IntModel.v
theories/IntProofs.v
theories/Props_Int.v
theories/FreshProofs.v
theories/Props_Fresh.v
theories/ClockSpec.v
theories/ClockProofs.v
theories/Props_Clock.v
theories/NoClockProofs.v
theories/Props_NoClock.v
theories/ByteSpec.v
theories/ByteProofs.v
theories/ByteProofs2.v
theories/ByteProofs3.v
theories/ByteProofs4.v
theories/ByteProofs5.v
theories/ByteFinal.v
theories/ByteCases.v
theories/ByteCases2.v
theories/Props_Byte.v
theories/FullSpec.v
theories/FullProofs.v
theories/FullFinal.v
theories/FullIn.v
theories/FullFinal2.v
theories/FullCases.v
theories/FullCases2.v
theories/Props_Full.v
theories/ReqSpec.v
theories/ReqProofs.v
theories/ReqFinal.v
theories/ReqCases.v
theories/Props_Req.v
theories/LineSpec.v
theories/LineProofs.v
theories/Props_Line.v
theories/LegalSpec.v
theories/LegalProofs.v
theories/Props_Legal.v
theories/UpProofs.v
theories/Props_Up.v
theories/WholeProofs.v
theories/Props_Whole.v
theories/DocSpec.v
theories/DocProofs.v
theories/DocCases.v
theories/Props_Doc.v
theories/LowSpec.v
theories/LowProofs.v
theories/LowCases.v
theories/Props_Low.v
theories/RefuseProofs.v
theories/Props_Refuse.v
theories/Props_Sent.v

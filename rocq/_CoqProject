-Q theories Verif
theories/Model/Base.v
theories/Model/Types.v
theories/Model/Iface.v
theories/Model/Common.v
theories/Model/Queue.v
theories/Model/SlaveData.v
theories/Model/SlavePDU.v
theories/Model/MasterPDU.v
theories/Model/Slave.v
theories/Model/Master.v
theories/Model/Driver.v
theories/Spec/Crc.v
theories/Spec/Frame.v
theories/Spec/Server.v
theories/Spec/Client.v
theories/Proofs/Lib.v
theories/Spec/Fifo.v
theories/Spec/Buf.v
theories/Spec/QueueRun.v
theories/Proofs/Crc.v
theories/Proofs/Rtu.v
theories/Proofs/FrameMain.v
theories/Proofs/Pack.v
theories/Proofs/Request.v
theories/Proofs/Response.v
theories/Proofs/RespMain.v
theories/Proofs/QueueP.v
theories/Proofs/ServerP.v
theories/Proofs/ServerMain.v
theories/Props/Frames.v
theories/Spec/Refusal.v
theories/Proofs/Unpack.v
theories/Props/Responses.v
theories/Proofs/SlaveMain.v
theories/Props/SlavePdu.v
theories/Props/Queue.v
theories/Props/DriverProps.v
theories/Spec/SlaveTrace.v
theories/Proofs/SlaveInv.v
theories/Proofs/SlavePhase.v
theories/Proofs/SlaveRx.v
theories/Proofs/SlaveBad.v
theories/Spec/MasterTrace.v
theories/Spec/SlaveTraffic.v
theories/Proofs/SlaveTraffic.v
theories/Props/SlaveRun.v
theories/Proofs/MasterInv.v
theories/Proofs/MasterTrace.v
theories/Proofs/MasterHist.v
theories/Proofs/MasterHist2.v
theories/Proofs/MasterErr.v
theories/Props/MasterRun.v
theories/Props/MasterReports.v
theories/Proofs/MasterPhase.v
theories/Proofs/MasterSafe.v
theories/Props/MasterSafe.v
theories/Spec/MasterTraffic.v
theories/Proofs/MasterDrive.v
theories/Proofs/MasterWait.v
theories/Proofs/MasterAttempt.v
theories/Proofs/MasterAnswer.v
theories/Proofs/MasterTries.v
theories/Proofs/MasterStuck.v
theories/Proofs/MasterForeign.v
theories/Proofs/MasterTimeout.v
theories/Proofs/MasterLeft.v
theories/Proofs/MasterIdle.v
theories/Props/MasterTime.v
theories/Proofs/MasterGood.v
theories/Props/MasterRetry.v
theories/Spec/EndToEnd.v
theories/Proofs/SlaveExchange.v
theories/Proofs/EndToEnd.v
theories/Proofs/Session.v
theories/Props/EndToEnd.v
theories/Model/Uart.v
theories/Model/SlaveSystem.v
theories/Spec/SlaveSystem.v
theories/Proofs/SlaveSystem.v
theories/Proofs/SlaveWire.v
theories/Proofs/SlaveArrive.v
theories/Proofs/SlaveAnswer.v
theories/Proofs/SlaveAsked.v
theories/Props/SlaveSystem.v
theories/Model/MasterSystem.v
theories/Spec/MasterSystem.v
theories/Proofs/MasterSystem.v
theories/Proofs/MasterWire.v
theories/Proofs/MasterListen.v
theories/Proofs/MasterOut.v
theories/Proofs/MasterExch.v
theories/Proofs/MasterLine.v
theories/Proofs/MasterLines.v
theories/Props/MasterSystem.v
theories/Props/MasterLine.v
theories/Spec/Bus.v
theories/Proofs/MasterSent.v
theories/Proofs/Bus.v
theories/Props/Bus.v
theories/Model/MasterApp.v
theories/Spec/MasterApp.v
theories/Proofs/MasterApp.v
theories/Props/MasterApp.v
theories/Model/SlaveApp.v
theories/Spec/SlaveApp.v
theories/Proofs/SlaveApp.v
theories/Props/SlaveApp.v
theories/Model/Line.v
theories/Spec/Line.v
theories/Props/Line.v
theories/Spec/Pair.v
theories/Proofs/Pair.v
theories/Props/Pair.v
theories/Spec/Noise.v
theories/Proofs/Noise.v
theories/Props/Noise.v
theories/Spec/Atomic.v
theories/Proofs/Prefix.v
theories/Proofs/Atomic.v
theories/Proofs/SlaveAtomic.v
theories/Proofs/MasterAtomic.v
theories/Proofs/Order.v
theories/Props/Atomic.v
theories/Spec/Flips.v
theories/Proofs/Flips.v
theories/Props/Flips.v
theories/Model/QueueSteps.v
theories/Spec/QueueIrq.v
theories/Proofs/QueueIrq.v
theories/Model/MasterFine.v
theories/Spec/MasterFine.v
theories/Proofs/MasterFine.v
theories/Props/QueueIrq.v
theories/Model/Clock.v
theories/Spec/Clock.v
theories/Proofs/Clock.v
theories/Props/Clock.v
theories/Model/SlaveIrqData.v
theories/Spec/SlaveIrqData.v
theories/Proofs/SlaveIrqData.v
theories/Props/SlaveIrqData.v
theories/Proofs/SlaveIrqNone.v
theories/Model/SlaveIrqRun.v
theories/Spec/SlaveIrqRun.v
theories/Proofs/SlaveIrqRun.v
theories/Props/SlaveIrqRun.v
theories/Model/MasterReq.v
theories/Spec/MasterReq.v
theories/Proofs/MasterReq.v
theories/Props/MasterReq.v
theories/Model/MasterCallback.v
theories/Spec/MasterCallback.v
theories/Proofs/MasterCallback.v
theories/Props/MasterCallback.v
theories/Model/Board.v
theories/Spec/Board.v
theories/Proofs/Board.v
theories/Props/Board.v
theories/Model/SlaveInit.v
theories/Spec/SlaveInit.v
theories/Proofs/SlaveInit.v
theories/Props/SlaveInit.v
theories/Model/MasterInit.v
theories/Spec/MasterInit.v
theories/Proofs/MasterInit.v
theories/Props/MasterInit.v
theories/Model/MasterHandlers.v
theories/Spec/MasterHandlers.v
theories/Proofs/MasterHandlers.v
theories/Proofs/MasterHandlers2.v
theories/Props/MasterHandlers.v
theories/Model/SlaveHandlers.v
theories/Spec/SlaveHandlers.v
theories/Proofs/SlaveHandlers.v
theories/Props/SlaveHandlers.v
theories/Proofs/MasterOnTime.v
theories/Props/MasterOnTime.v
theories/Spec/MasterRace.v
theories/Proofs/MasterRace.v
theories/Proofs/MasterRaceSafe.v
theories/Proofs/MasterRaceWire.v
theories/Proofs/MasterRaceCount.v
theories/Props/MasterRace.v

-Q theories Verif
theories/Model/Prelude.v
theories/Model/Bus.v
theories/Model/Specifiers.v
theories/Model/LlBits.v
theories/Model/LlAddr.v
theories/Model/Ll.v
theories/Model/Spi.v
theories/Model/Chip.v
theories/Model/HlIo.v
theories/Model/Stream.v
theories/Model/HlCommon.v
theories/Model/HlTcp.v
theories/Model/HlUdp.v
theories/Model/HlHostname.v
theories/Spec/SpiBus.v
theories/Spec/Bits.v
theories/Spec/Sock.v
theories/Spec/RegFile.v
theories/Spec/Hoare.v
theories/Spec/Cursor.v
theories/Spec/TcpClient.v
theories/Spec/Cases.v
theories/Proof/Base.v
theories/Proof/SpiP.v
theories/Proof/ChipP.v
theories/Proof/LlP.v
theories/Proof/RegP.v
theories/Proof/SockP.v
theories/Proof/CursorP.v
theories/Proof/StreamP.v
theories/Proof/TcpP.v
theories/Props/Spi.v
theories/Props/Registers.v
theories/Props/Tcp.v
theories/Spec/UdpClient.v
theories/Proof/UdpP.v
theories/Props/Udp.v
theories/Spec/Calls.v
theories/Proof/CallsP.v
theories/Proof/OpenP.v
theories/Props/Open.v
theories/Spec/Hostname.v
theories/Proof/HostnameP.v
theories/Props/Hostname.v
theories/Model/Utf8.v
theories/Model/Dns.v
theories/Spec/StreamRun.v
theories/Proof/SprogP.v
theories/Spec/Utf8.v
theories/Spec/DnsMsg.v
theories/Proof/Utf8P.v
theories/Proof/DnsNameP.v
theories/Proof/DgramP.v
theories/Proof/DnsTermP.v
theories/Proof/DnsRespP.v
theories/Proof/DnsQueryP.v
theories/Proof/DnsMainP.v
theories/Props/Dns.v
theories/Proof/MdnsP.v
theories/Proof/QuietP.v
theories/Model/DhcpPkt.v
theories/Spec/DhcpMsg.v
theories/Proof/EmitP.v
theories/Proof/DhcpPktP.v
theories/Proof/DhcpChipP.v
theories/Spec/DhcpCases.v
theories/Proof/DhcpCaseP.v
theories/Props/Dhcp.v
theories/Model/DhcpClient.v
theories/Spec/DhcpRfc.v
theories/Proof/ChipIfP.v
theories/Proof/DhcpClientP.v
theories/Proof/DhcpMachineP.v
theories/Spec/DhcpHist.v
theories/Proof/DhcpHistP.v
theories/Proof/DhcpBlockP.v
theories/Props/DhcpClient.v
theories/Model/Sntp.v
theories/Spec/SntpMsg.v
theories/Proof/SntpP.v
theories/Proof/SntpNumP.v
theories/Props/Sntp.v
theories/Model/Mqtt.v
theories/Proof/TcpStreamP.v
theories/Spec/MqttMsg.v
theories/Proof/MqttVbiP.v
theories/Proof/MqttSendP.v
theories/Proof/MqttRecvP.v
theories/Proof/MqttRxP.v
theories/Proof/MqttProcP.v
theories/Proof/MqttPubP.v
theories/Spec/Silent.v
theories/Proof/LeafP.v
theories/Proof/MqttHistP.v
theories/Proof/MqttMainP.v
theories/Props/Mqtt.v
theories/Model/Aes.v
theories/Model/Ghash.v
theories/Model/Gcm.v
theories/Spec/Fips197.v
theories/Spec/Gcm38D.v
theories/Spec/GcmCalls.v
theories/Proof/AesP.v
theories/Proof/LinP.v
theories/Proof/GhashP.v
theories/Proof/Ghash2P.v
theories/Proof/Ghash3P.v
theories/Proof/GcmP.v
theories/Props/Crypto.v
theories/Model/TlsTypes.v
theories/Model/TlsBuf.v
theories/Spec/TlsQueue.v
theories/Proof/RingP.v
theories/Proof/TlsBufP.v
theories/Proof/TlsHsP.v
theories/Props/TlsBuffer.v
theories/Model/TlsKeys.v
theories/Model/TlsHello.v
theories/Spec/TlsSecrets.v
theories/Spec/TlsMessages.v
theories/Spec/TlsCases.v
theories/Proof/TlsParseP.v
theories/Proof/TlsHelloP.v
theories/Proof/TlsCaseP.v
theories/Props/TlsHandshake.v
theories/Model/TlsRecord.v
theories/Model/TlsClient.v
theories/Spec/TlsSession.v
theories/Spec/TlsQuiet.v
theories/Spec/TlsProtect.v
theories/Spec/TlsTalk.v
theories/Proof/TlsLeafP.v
theories/Proof/TlsInvP.v
theories/Proof/TlsHistP.v
theories/Proof/TlsQuietP.v
theories/Proof/TlsTalkP.v
theories/Props/TlsSession.v
theories/Spec/TlsWire.v
theories/Proof/TlsTxP.v
theories/Proof/TlsSendP.v
theories/Proof/TlsWireP.v
theories/Proof/TlsSentP.v
theories/Props/TlsRecords.v
theories/Spec/TlsAuth.v
theories/Proof/TlsAuthP.v
theories/Proof/TlsForgeP.v
theories/Props/TlsReceive.v
theories/Spec/TlsRx.v
theories/Proof/TlsRxP.v
theories/Proof/TlsRx2P.v
theories/Proof/TlsRx3P.v
theories/Proof/TlsRx4P.v
theories/Proof/TlsRx5P.v
theories/Props/TlsDelivery.v
theories/Model/LlAio.v
theories/Model/Drivers.v
theories/Spec/Drivers.v
theories/Proof/DriversP.v
theories/Proof/Drivers2P.v
theories/Props/Drivers.v
theories/Model/MqttTls.v
theories/Spec/MqttTlsMsg.v
theories/Spec/MqttTlsTalk.v
theories/Proof/MqttTlsSendP.v
theories/Proof/MqttTlsRxP.v
theories/Proof/MqttTlsMainP.v
theories/Proof/MqttTlsHistP.v
theories/Proof/MqttTlsHist2P.v
theories/Proof/MqttTlsAuthP.v
theories/Proof/MqttTlsCaseP.v
theories/Props/MqttTls.v
theories/Spec/TlsCrash.v
theories/Proof/TlsSafeP.v
theories/Proof/TlsSafeHistP.v
theories/Proof/TlsCrashP.v
theories/Props/TlsCrash.v
theories/Model/Regsim.v
theories/Spec/Regsim.v
theories/Spec/RegsimCases.v
theories/Spec/ClientId.v
theories/Proof/RegsimRegP.v
theories/Proof/RegsimSnP.v
theories/Proof/RegsimEvP.v
theories/Proof/RegsimCmdP.v
theories/Proof/RegsimRunP.v
theories/Proof/RegsimMoreP.v
theories/Proof/RegsimCaseP.v
theories/Proof/ClientIdP.v
theories/Props/Regsim.v
theories/Props/ClientId.v
theories/Spec/TlsRelease.v
theories/Proof/TlsReleaseP.v
theories/Spec/MqttTlsCrash.v
theories/Proof/MqttTlsCrashP.v
theories/Proof/MqttTlsCrash2P.v
theories/Props/MqttTlsCrash.v
theories/Spec/RegsimStatus.v
theories/Proof/RegsimStatusP.v
theories/Props/RegsimStatus.v
theories/Spec/Retry.v
theories/Proof/RetryP.v
theories/Props/Retry.v
theories/Spec/DhcpFault.v
theories/Spec/DhcpStuck.v
theories/Proof/DhcpFaultP.v
theories/Proof/DhcpStuckP.v
theories/Proof/DhcpFaultCaseP.v
theories/Props/DhcpFault.v
theories/Spec/DnsStuck.v
theories/Spec/SntpHist.v
theories/Proof/DnsStuckP.v
theories/Proof/SntpHistP.v
theories/Props/Blocked.v
theories/Spec/Clients.v
theories/Proof/StopP.v
theories/Proof/ClientsP.v
theories/Props/Clients.v
theories/Spec/MqttStuck.v
theories/Proof/MqttStuckP.v
theories/Props/MqttStuck.v
theories/Spec/Setup.v
theories/Proof/SetupP.v
theories/Proof/SetupRunP.v
theories/Props/Setup.v
theories/Spec/TlsStream.v
theories/Proof/TlsRx6P.v
theories/Proof/TlsStreamP.v
theories/Props/TlsStream.v
theories/Spec/MqttStream.v
theories/Proof/MqttStreamP.v
theories/Props/MqttStream.v
theories/Spec/MqttTlsStream.v
theories/Proof/MqttTlsStreamP.v
theories/Props/MqttTlsStream.v
theories/Spec/DhcpDue.v
theories/Proof/DhcpDueP.v
theories/Props/DhcpDue.v
theories/Spec/TlsComplete.v
theories/Proof/TlsGreetP.v
theories/Proof/TlsCompleteP.v
theories/Props/TlsComplete.v
theories/Spec/TlsArrive.v
theories/Proof/TlsArriveP.v
theories/Proof/TlsArriveCaseP.v
theories/Props/TlsArrive.v
theories/Proof/TlsOpenP.v
theories/Spec/MqttTlsConnect.v
theories/Proof/MqttTlsConnectP.v
theories/Proof/MqttTlsConnectCaseP.v
theories/Props/MqttTlsConnect.v
theories/Spec/TlsPunctual.v
theories/Spec/MqttTlsPunctual.v
theories/Proof/TlsPunctualP.v
theories/Proof/TlsPunctualCaseP.v
theories/Proof/MqttTlsPunctualP.v
theories/Props/TlsPunctual.v
theories/Spec/MqttConnect.v
theories/Proof/MqttConnectP.v
theories/Props/MqttConnect.v
theories/Proof/TlsStartP.v
theories/Props/TlsStart.v
theories/Proof/MqttTlsStartP.v
theories/Props/MqttTlsStart.v

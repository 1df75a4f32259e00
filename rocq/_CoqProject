-Q theories Verif
theories/Go.v
theories/Encoding.v
theories/Protocol.v
theories/Parser.v
theories/Spec.v
theories/GoFacts.v
theories/EncodingFacts.v
theories/MessageFacts.v
theories/ParserFacts.v
theories/Reader.v
theories/ReaderFacts.v
theories/ProtocolFacts.v
theories/PropsProtocol.v
theories/StdDB.v
theories/Property.v
theories/Object.v
theories/PropertyFacts.v
theories/ObjectFacts.v
theories/PropsObject.v
theories/Node.v
theories/NodeFacts.v
theories/PropsNode.v
theories/Handler.v
theories/HandlerFacts.v
theories/PropsHandler.v
theories/Remote.v
theories/RemoteFacts.v
theories/PropsRemote.v
theories/Post.v
theories/PostFacts.v
theories/PostCalm.v
theories/PostTid.v
theories/PropsPost.v
theories/Transport.v
theories/TransportFacts.v
theories/TransportStart.v
theories/PropsTransport.v
theories/PropsStart.v
theories/Cmd.v
theories/CmdFacts.v
theories/CmdTable.v
theories/PropsCmd.v
theories/PropsScan.v
theories/Exchange.v
theories/ExchangeFacts.v
theories/PropsExchange.v
theories/PropsSearch.v
theories/PropsSource.v
theories/Lan.v
theories/LanFacts.v
theories/PropsLan.v
theories/PropsConnection.v
theories/PropsDetails.v
theories/ManDB.v
theories/Programs.v
theories/PropsPrograms.v
theories/Concurrent.v
theories/ConcurrentFacts.v
theories/PropsConcurrent.v
theories/TableFacts.v
theories/PropsTable.v
theories/PropsMemory.v
theories/Life.v
theories/PropsLife.v
theories/Control.v
theories/ControlFacts.v
theories/PropsControl.v
theories/PropsOrder.v
theories/Options.v
theories/PropsOptions.v
theories/StdNames.v
theories/Names.v
theories/PropsNames.v
theories/SearchTool.v
theories/PropsSearchTool.v
theories/AddressText.v
theories/PropsAddress.v
theories/Bound.v
theories/PropsBound.v
theories/Owner.v
theories/OwnerFacts.v
theories/PropsOwner.v
theories/MapRace.v
theories/PropsMapRace.v
theories/PostTool.v
theories/PropsPostTool.v
theories/TabWriter.v
theories/TabFacts.v
theories/PropsPrinted.v
theories/JsonText.v
theories/PropsJson.v
theories/RepoTests.v
theories/Packet.v
theories/PropsPacket.v
theories/NodeText.v
theories/PropsText.v
theories/Stopping.v
theories/PropsStopping.v
theories/Timing.v
theories/PropsTiming.v
theories/Listing.v
theories/PropsListing.v
theories/LogText.v
theories/PropsLog.v
theories/PropsAccess.v
theories/Values.v
theories/ValuesFacts.v
theories/PropsValues.v
theories/PropsCut.v
theories/Family.v
theories/PropsFamily.v
theories/Errors.v
theories/PropsErrors.v
theories/PropsIsolation.v
theories/SearchTime.v
theories/PropsSearchTime.v
theories/PropsVolley.v
theories/PropsPostExact.v
theories/PropsPostCause.v
theories/CmdRun.v
theories/PropsCmdRun.v
theories/PropsCmdNet.v
theories/LanScan.v
theories/PropsLanScan.v
theories/Alias.v
theories/AliasFacts.v
theories/PropsAlias.v

-Q theories Verif
theories/Bytes.v
theories/Res.v
theories/Wire.v
theories/WireProofs.v
theories/Crypto.v
theories/Cbc.v
theories/CbcProofs.v
theories/Messages.v
theories/MessagesProofs.v
theories/Session.v
theories/Builder.v
theories/SessionProofs.v
theories/SessionFacts.v
theories/History.v
theories/HistoryProofs.v
theories/Replay.v
theories/CrashReceive.v
theories/Conversation.v
theories/ConversationProofs.v
theories/FirstMessage.v
theories/InOrder.v
theories/Skipped.v
theories/Examples.v
theories/RecordCodec.v
theories/RecordCodecProofs.v
theories/Decimal.v
theories/Storage.v
theories/StorageProofs.v
theories/TypedHistory.v
theories/Encodings.v
theories/Content.v
theories/ContentProofs.v
theories/Sending.v
theories/SendingProofs.v
theories/PropConversation.v
theories/PropWire.v
theories/PropReceive.v
theories/PropHistory.v
theories/PropStorage.v
theories/PropEncodings.v
theories/PropSending.v
theories/Receiving.v
theories/PropReceiving.v
theories/Fingerprint.v
theories/PropFingerprint.v
theories/PreKeyGen.v
theories/PropPreKeys.v
theories/Attachments.v
theories/PropAttachments.v
theories/Gcm.v
theories/Profile.v
theories/PropProfile.v
theories/Regex.v
theories/Contacts.v
theories/PropContacts.v
theories/PropDiscovery.v
theories/Credentials.v
theories/PropCredentials.v
theories/CurveSign.v
theories/PropCurveSign.v
theories/Crayfish.v
theories/PropCrayfish.v
theories/GroupsV1.v
theories/PropGroupsV1.v
theories/GroupsV2.v
theories/GroupsV2Proofs.v
theories/PropGroupsV2.v
theories/PropGroupsV2Effects.v
theories/Groups2Store.v
theories/PropGroups2Store.v
theories/Startup.v
theories/PropStartup.v
theories/Linking.v
theories/PropLinking.v
theories/Attestation.v
theories/PropAttestation.v
theories/Access.v
theories/PropAccess.v
theories/Transport.v
theories/PropTransport.v
theories/Avatars.v
theories/PropAvatars.v
theories/Gateway.v
theories/PropGateway.v
theories/Whole.v
theories/PropWhole.v
theories/Concurrent.v
theories/ConcurrentProofs.v
theories/PropConcurrent.v
theories/Apart.v
theories/PropApart.v
theories/Listener.v
theories/PropListener.v
theories/PropErasure.v
theories/PropCrossing.v
theories/PropNetwork.v
theories/Helper.v
theories/PropHelper.v
theories/PropKeyUpdates.v
theories/Secrecy.v
theories/SecrecyProofs.v
theories/SecrecyLink.v
theories/PropSecrecy.v
theories/Active.v
theories/ActiveLink.v
theories/PropActive.v
theories/PropInterrupted.v
theories/PropProtocol.v
theories/PropPinned.v
theories/PropKeysTold.v
theories/Injective.v
theories/PropInjective.v
theories/Accounts.v
theories/PropAccounts.v
theories/Readers.v
theories/PropReaders.v
theories/PropRelabel.v
theories/Reuse.v
theories/PropReuse.v
theories/PropGroupsV2Each.v
theories/PropMarks.v
theories/PropStays.v
theories/PropSmaller.v
theories/InTouch.v
theories/Delivery.v
theories/PropDelivery.v
theories/Lifetime.v
theories/PropLifetime.v
theories/PropPosted.v
theories/Applications.v
theories/PropApplications.v
theories/Fresh.v
theories/PropFresh.v
theories/PropCounted.v
theories/DiskLife.v
theories/PropDiskLife.v
theories/GroupClock.v
theories/PropGroupClock.v
theories/Answers.v
theories/PropAnswers.v
theories/SafetyNumber.v
theories/PropSafetyNumber.v
theories/ConfigFile.v
theories/PropConfig.v
theories/OpenStore.v
theories/PropOpenStore.v
theories/Console.v
theories/PropConsole.v
theories/Program.v
theories/PropProgram.v
theories/SyncContacts.v
theories/PropSyncContacts.v
theories/Json.v
theories/GatewayAnswers.v
theories/PropGatewayAnswers.v
theories/PropStamps.v
theories/SavedFiles.v
theories/PropSavedFiles.v
theories/PropUnread.v
theories/PropDecisions.v
theories/GroupSend.v
theories/PropGroupSend.v
theories/Alive.v
theories/PropAlive.v
theories/AckQueue.v
theories/PropAckQueue.v
theories/Reconnect.v
theories/PropReconnect.v
theories/PropGroupCopies.v
theories/PropSupply.v
theories/PropOldGroups.v
theories/Fetch.v
theories/PropFetch.v
theories/PropPoison.v
theories/PropGoodbye.v

-Q theories Verif
theories/Base.v
theories/State.v
theories/Codec.v
theories/Dollar.v
theories/Vaults.v
theories/Portal.v
theories/Ibc.v
theories/Genesis.v
theories/Queries.v
theories/System.v
theories/MapSum.v
theories/Wp.v
theories/SendP.v
theories/EffectsP.v
theories/Spec.v
theories/Concrete.v
theories/OpsP.v
theories/VaultsP.v
theories/TraceP.v
theories/PosP.v
theories/InvP.v
theories/CoreP.v
theories/UserP.v
theories/RunP.v
theories/ArithP.v
theories/CoreThmP.v
theories/AdminP.v
theories/CodecP.v
theories/PortalP.v
theories/WireP.v
theories/StakeP.v
theories/StatP.v
theories/WithdrawP.v
theories/RewardP.v
theories/SeasonP.v
theories/ExtP.v
theories/GenesisP.v
theories/LiveP.v
theories/SolvencyP.v
theories/HoldersP.v
theories/FlexP.v
theories/PayoutP.v
theories/FlexLiveP.v
theories/ExactP.v
theories/CoverP.v
theories/QueryP.v
theories/WorthP.v
theories/UpdateP.v
theories/FrameP.v
theories/EndP.v
theories/UpgradeP.v
theories/BoardP.v
theories/Store.v
theories/StoreP.v
theories/TypedP.v
theories/PropsArith.v
theories/PropsCore.v
theories/PropsAdmin.v
theories/PropsPortal.v
theories/PropsVaults.v
theories/PropsRewards.v
theories/PropsExt.v
theories/PropsGenesis.v
theories/PropsLive.v
theories/PropsSolvency.v
theories/PropsHolders.v
theories/PropsFlex.v
theories/PropsExact.v
theories/PropsCover.v
theories/PropsQueries.v
theories/PropsWorth.v
theories/PropsUpdate.v
theories/PropsFrame.v
theories/PropsEnd.v
theories/PropsUpgrade.v
theories/PropsWire.v
theories/PropsStore.v
theories/Events.v
theories/EventsP.v
theories/PropsEvents.v
theories/OrderP.v
theories/UnlockOrderP.v
theories/PropsOrder.v
theories/SplitP.v
theories/PropsSplit.v
theories/Tests.v

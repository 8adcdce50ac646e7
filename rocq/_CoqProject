-Q theories Verif
theories/Base.v
theories/DFloat.v
theories/Lists.v
theories/Types.v
theories/Config.v
theories/Oracle.v
theories/Pool.v
theories/Account.v
theories/Fees.v
theories/Referral.v
theories/ExInternal.v
theories/Exchange.v
theories/System.v
theories/Wrapper.v
theories/Scenario.v
theories/Sums.v
theories/Trace.v
theories/Frames.v
theories/Calls.v
theories/Shape.v
theories/Spec.v
theories/P_Ledger.v
theories/P_Accounts.v
theories/P_DFloat.v
theories/Witness.v
theories/Props_Config.v
theories/Frames2.v
theories/P_Fees.v
theories/Props_Ledger.v
theories/P_Tokens.v
theories/Props_Tokens.v
theories/P_Requests.v
theories/P_Requests2.v
theories/P_Requests3.v
theories/SpecRequests.v
theories/Props_Requests.v
theories/P_Requests4.v
theories/P_Refs.v
theories/Props_Requests2.v
theories/Props_Requests3.v
theories/Trading.v
theories/P_Positions.v
theories/P_Positions2.v
theories/P_Snaps.v
theories/SpecTrading.v
theories/Props_Positions.v
theories/SpecOracle.v
theories/P_Oracle.v
theories/P_Keeper.v
theories/Props_Oracle.v
theories/SpecMargin.v
theories/P_Orders.v
theories/P_Final.v
theories/P_OrderCall.v
theories/Props_Orders.v
theories/P_Risk.v
theories/Props_Limits.v
theories/P_Coll.v
theories/P_Remove.v
theories/Props_Collateral.v
theories/P_Margin.v
theories/Props_Margin.v
theories/P_Whole.v
theories/SpecLiq.v
theories/P_Liq.v
theories/Props_Liq.v
theories/P_Adl.v
theories/P_Longs.v
theories/Props_Adl.v
theories/Props_LP.v
theories/Props_Rates.v
theories/Props_Swap.v
theories/Props_Perm.v
theories/SpecFunding.v
theories/P_Updates.v
theories/Props_Funding.v
theories/SpecAuth.v
theories/P_Rules.v
theories/Props_Auth.v
theories/SpecReferral.v
theories/P_Gen.v
theories/P_Gen2.v
theories/Props_Referral.v
theories/SpecWrapper.v
theories/Props_Wrapper.v
theories/SpecLists.v
theories/P_Lists.v
theories/Props_Lists.v
theories/P_Configured.v
theories/Props_Getters.v
theories/Getters.v
theories/Props_Getters2.v
theories/Tools.v
theories/Props_Tools.v
theories/Props_Split.v
theories/Props_Stored.v
theories/P_Access.v
theories/Props_Access.v
theories/Props_Deposits.v
theories/Props_Wrapper2.v
theories/Props_Oracle2.v
theories/Props_Submit.v
theories/Props_RefAdmin.v
theories/Props_Funding2.v
theories/Props_Accrual.v
theories/SpecEvents.v
theories/P_Events.v
theories/P_Events2.v
theories/Props_Events.v
theories/Props_Events2.v
theories/P_Indep.v
theories/Props_Indep.v
theories/SpecRefuse.v
theories/P_Refuse.v
theories/P_Refuse2.v
theories/P_Refuse3.v
theories/P_Refuse4.v
theories/P_Refuse5.v
theories/Props_Refuse.v
theories/Props_Refuse2.v
theories/Props_Refuse3.v
theories/Props_Refuse4.v
theories/Props_Refuse5.v
theories/Props_Refuse6.v
theories/Props_Refuse7.v
theories/Props_Refuse8.v
theories/Props_Refuse9.v
theories/Props_Refuse10.v
theories/Props_Oracle3.v
theories/P_Live.v
theories/Props_Live.v
theories/P_Live2.v
theories/Props_Live2.v
theories/Props_Deposits2.v
theories/Props_Tokens2.v
theories/Props_Provenance.v
theories/Props_WellFormed.v
theories/Props_Exit.v
theories/SpecRefuse2.v
theories/P_Refuse6.v
theories/Props_Refuse11.v
theories/Props_Refuse12.v
theories/Props_Refuse13.v
theories/SpecRefuse3.v
theories/Props_Refuse14.v
theories/P_Refuse7.v
theories/Props_Refuse15.v
theories/Props_Submit2.v
theories/Props_Provenance2.v
theories/P_Live3.v
theories/Props_Live3.v
theories/Props_OnePrice.v
theories/Props_Sheet.v
theories/Props_Sheet2.v
theories/Props_OnePrice2.v
theories/Assumptions.v

-Q theories Verif
theories/Base.v
theories/Balances.v
theories/Proofs_Balances.v
theories/Model_Micropayment.v
theories/Spec_Micropayment.v
theories/Proofs_Micropayment.v
theories/Proofs_Micropayment2.v
theories/Proofs_Micropayment3.v
theories/Proofs_Micropayment4.v
theories/Proofs_Micropayment5.v
theories/Props_Micropayment.v
theories/Model_UserPrivileges.v
theories/Spec_UserPrivileges.v
theories/Proofs_UserPrivileges.v
theories/Props_UserPrivileges.v
theories/Model_CreditAccumulation.v
theories/Spec_CreditAccumulation.v
theories/Proofs_CreditAccumulation.v
theories/Props_CreditAccumulation.v
theories/Proofs_Arith.v
theories/Model_Regions.v
theories/Model_DeeperNode.v
theories/Spec_DeeperNode.v
theories/Proofs_DeeperNode.v
theories/Proofs_DeeperNode2.v
theories/Props_DeeperNode.v
theories/Model_Credit.v
theories/Spec_Credit.v
theories/Proofs_Credit.v
theories/Proofs_Credit2.v
theories/Proofs_Credit3.v
theories/Proofs_Credit4.v
theories/Proofs_Credit5.v
theories/Props_Credit.v
theories/Model_Precompile.v
theories/Spec_Precompile.v
theories/Proofs_Precompile.v
theories/Props_Precompile.v
theories/Model_Adsc.v
theories/Spec_Adsc.v
theories/Proofs_Adsc.v
theories/Proofs_Adsc2.v
theories/Proofs_Adsc3.v
theories/Proofs_Adsc4.v
theories/Proofs_Adsc5.v
theories/Props_Adsc.v
theories/Model_Operation.v
theories/Spec_Operation.v
theories/Proofs_Operation.v
theories/Proofs_Operation2.v
theories/Proofs_Operation3.v
theories/Props_Operation.v
theories/Props_Operation2.v
theories/Model_StakingLedger.v
theories/Model_Staking.v
theories/Spec_Staking.v
theories/Proofs_StakingLedger.v
theories/Proofs_Staking.v
theories/Proofs_Staking2.v
theories/Proofs_Staking3.v
theories/Proofs_Staking4.v
theories/Proofs_Staking5.v
theories/Proofs_Staking6.v
theories/Proofs_Staking7.v
theories/Props_Staking.v
theories/Proofs_Staking8.v
theories/Proofs_Staking9.v
theories/Proofs_Staking10.v
theories/Proofs_Staking11.v
theories/Proofs_Staking12.v
theories/Proofs_Staking13.v
theories/Props_Staking2.v
theories/Spec_Staking2.v
theories/Proofs_Staking14.v
theories/Proofs_Staking15.v
theories/Props_Staking3.v
theories/Proofs_Staking16.v
theories/Proofs_Staking17.v
theories/Props_Staking4.v
theories/Proofs_Staking18.v
theories/Proofs_Staking19.v
theories/Props_Staking5.v
theories/Spec_Staking3.v
theories/Proofs_Staking20.v
theories/Proofs_Staking21.v
theories/Props_Staking6.v
theories/Model_Tips.v
theories/Spec_Tips.v
theories/Proofs_Tips.v
theories/Proofs_Tips2.v
theories/Proofs_Tips3.v
theories/Proofs_Tips4.v
theories/Proofs_Tips5.v
theories/Props_Tips.v
theories/Model_Elections.v
theories/Spec_Elections.v
theories/Proofs_Elections.v
theories/Proofs_Elections2.v
theories/Proofs_Elections3.v
theories/Proofs_Elections4.v
theories/Proofs_Elections5.v
theories/Proofs_Elections6.v
theories/Proofs_Elections7.v
theories/Proofs_Elections8.v
theories/Proofs_Elections9.v
theories/Proofs_Elections10.v
theories/Proofs_Elections11.v
theories/Proofs_Elections12.v
theories/Props_Elections.v
theories/Props_Elections2.v
theories/Model_Runtime.v
theories/Spec_Runtime.v
theories/Proofs_Runtime.v
theories/Proofs_Runtime2.v
theories/Proofs_Runtime3.v
theories/Props_Runtime.v
theories/Model_Migration.v
theories/Spec_Migration.v
theories/Proofs_Migration.v
theories/Props_Migration.v
theories/Model_TipsMigration.v
theories/Spec_TipsMigration.v
theories/Proofs_TipsMigration.v
theories/Props_TipsMigration.v
theories/Model_Fees.v
theories/Spec_Fees.v
theories/Proofs_Fees.v
theories/Props_Fees.v
theories/Model_Council.v
theories/Spec_Council.v
theories/Proofs_Council.v
theories/Props_Council.v
theories/Model_Price.v
theories/Spec_Price.v
theories/Proofs_Price.v
theories/Proofs_Price2.v
theories/Props_Price.v
theories/Spec_Staking4.v
theories/Proofs_Staking22.v
theories/Proofs_Staking23.v
theories/Proofs_Staking24.v
theories/Proofs_Staking25.v
theories/Props_Staking7.v
theories/Proofs_Credit6.v
theories/Model_Chain.v
theories/Spec_Chain.v
theories/Proofs_Chain1.v
theories/Proofs_Chain2.v
theories/Proofs_Chain3.v
theories/Props_Chain.v
theories/Proofs_Credit7.v
theories/Proofs_Chain4.v
theories/Proofs_Chain5.v
theories/Proofs_Chain6.v
theories/Props_Chain2.v
theories/Proofs_Credit8.v
theories/Proofs_Chain7.v
theories/Props_Chain3.v
theories/Proofs_Credit9.v
theories/Proofs_Chain8.v
theories/Proofs_Staking26.v
theories/Proofs_Chain9.v
theories/Props_Chain4.v
theories/Spec_Chain2.v
theories/Proofs_Chain10.v
theories/Props_Chain5.v
theories/Model_World.v
theories/Spec_World.v
theories/Proofs_World1.v
theories/Proofs_World2.v
theories/Proofs_World3.v
theories/Proofs_World4.v
theories/Props_World.v
theories/Spec_World2.v
theories/Proofs_World5.v
theories/Proofs_World6.v
theories/Props_World2.v
theories/Spec_Chain3.v
theories/Proofs_Chain11.v
theories/Spec_World3.v
theories/Proofs_World7.v
theories/Proofs_World8.v
theories/Props_World3.v
theories/Model_Genesis.v
theories/Spec_Genesis.v
theories/Proofs_Genesis.v
theories/Props_Genesis.v
theories/Model_Nfts.v
theories/Spec_Nfts.v
theories/Proofs_Nfts0.v
theories/Proofs_Nfts1.v
theories/Proofs_Nfts2.v
theories/Proofs_Nfts3.v
theories/Props_Nfts.v
theories/Model_Settings.v
theories/Spec_Settings.v
theories/Proofs_Settings.v
theories/Props_Settings.v
theories/Spec_World4.v
theories/Proofs_World9.v
theories/Proofs_World10.v
theories/Props_World4.v
theories/Spec_World5.v
theories/Proofs_World11.v
theories/Props_World5.v
theories/Spec_World6.v
theories/Proofs_World12.v
theories/Proofs_World13.v
theories/Proofs_World14.v
theories/Proofs_World15.v
theories/Proofs_World16.v
theories/Props_World6.v
theories/Spec_Staking5.v
theories/Proofs_Staking27.v
theories/Props_Staking8.v
theories/Spec_World7.v
theories/Proofs_World17.v
theories/Proofs_World18.v
theories/Props_World7.v
theories/Model_Inspect.v
theories/Spec_Inspect.v
theories/Proofs_Inspect.v
theories/Props_Inspect.v
theories/Model_Extrinsic.v
theories/Spec_Extrinsic.v
theories/Proofs_Extrinsic.v
theories/Props_Extrinsic.v
theories/Model_Meter.v
theories/Spec_Meter.v
theories/Proofs_Meter.v
theories/Props_Meter.v
theories/Spec_Proxy.v
theories/Proofs_Proxy.v
theories/Props_Proxy.v
theories/Spec_Reporter.v
theories/Proofs_Reporter.v
theories/Props_Reporter.v
theories/Model_Assets.v
theories/Spec_Assets.v
theories/Proofs_Assets.v
theories/Props_Assets.v
theories/Spec_Lease.v
theories/Proofs_Lease.v
theories/Props_Lease.v
theories/Spec_Record.v
theories/Proofs_Record.v
theories/Props_Record.v
theories/Spec_Pool.v
theories/Proofs_Pool.v
theories/Props_Pool.v
theories/Spec_Dollars.v
theories/Proofs_Dollars.v
theories/Props_Dollars.v
theories/Spec_Referees.v
theories/Proofs_Referees.v
theories/Props_Referees.v
theories/Spec_Referral.v
theories/Proofs_Referral.v
theories/Proofs_Referral2.v
theories/Props_Referral.v
theories/Spec_Reach.v
theories/Proofs_Reach.v
theories/Props_Reach.v
theories/Proofs_Parts.v
theories/Props_Parts.v
theories/Spec_Reporter2.v
theories/Proofs_Reporter2.v
theories/Proofs_Reporter3.v
theories/Props_Reporter2.v
theories/Spec_Compensation.v
theories/Props_Compensation.v
theories/Spec_History.v
theories/Proofs_History.v
theories/Props_History.v
theories/Spec_OtherLocks.v
theories/Proofs_OtherLocks.v
theories/Props_OtherLocks.v
theories/Spec_Cover.v
theories/Proofs_Cover.v
theories/Props_Cover.v
theories/Spec_Cancelled.v
theories/Proofs_Cancelled.v
theories/Props_Cancelled.v
theories/Spec_Counts.v
theories/Proofs_Counts.v
theories/Props_Counts.v
theories/Spec_Invulnerable.v
theories/Proofs_Invulnerable.v
theories/Props_Invulnerable.v
theories/Spec_Turns.v
theories/Proofs_Turns.v
theories/Props_Turns.v
